(** Generated by tools/gen_all_locales.py from /repo/internal/data. Do not edit. *)
From Verif Require Import GoBase SMap Regex Language LocaleData.

(** pa-guru.go:12-126 *)
Definition loc_pa_Guru : locale := Eval vm_compute in
  {| ld_name := lit "pa-Guru"; ld_order := lit "DMY"; ld_nospacing := false; ld_splitter := 0;
    ld_charset := runes (lit "cgtuzਅਆਇਈਐਕਗਘਚਛਜਟਣਤਦਧਨਪਫਬਭਮਰਲਵਸਹ਼ਾਿੀੁੂੇੈੋ੍ੰੱ");
    ld_abbr := [];
    ld_simpl := [];
    ld_trans := [(lit "ਸਨਿਚਰਵਾਰ", [lit "saturday"]);
    (lit "ਮਗਲਵਾਰ", [lit "tuesday"]);
    (lit "ਵੀਰਵਾਰ", [lit "thursday"]);
    (lit "ਸਕਰਵਾਰ", [lit "friday"]);
    (lit "ਅਕਤਬਰ", [lit "october"]);
    (lit "ਐਤਵਾਰ", [lit "sunday"]);
    (lit "ਜਨਵਰੀ", [lit "january"]);
    (lit "ਫਰਵਰੀ", [lit "february"]);
    (lit "ਬਧਵਾਰ", [lit "wednesday"]);
    (lit "ਮਹੀਨਾ", [lit "month"]);
    (lit "ਸਨਿਚਰ", [lit "saturday"]);
    (lit "ਸਮਵਾਰ", [lit "monday"]);
    (lit "ਅਗਸਤ", [lit "august"]);
    (lit "ਅਪਰਲ", [lit "april"]);
    (lit "ਜਲਾਈ", [lit "july"]);
    (lit "ਦਸਬਰ", [lit "december"]);
    (lit "ਨਵਬਰ", [lit "november"]);
    (lit "ਮਾਰਚ", [lit "march"]);
    (lit "ਸਕਿਟ", [lit "second"]);
    (lit "ਸਤਬਰ", [lit "september"]);
    (lit "ਹਫਤਾ", [lit "week"]);
    (lit "gmt", [lit "gmt"]);
    (lit "utc", [lit "utc"]);
    (lit "ਅਕਤ", [lit "october"]);
    (lit "ਅਪਰ", [lit "april"]);
    (lit "ਘਟਾ", [lit "hour"]);
    (lit "ਜਲਾ", [lit "july"]);
    (lit "ਦਿਨ", [lit "day"]);
    (lit "ਬਾਦ", [lit "pm"]);
    (lit "ਮਗਲ", [lit "tuesday"]);
    (lit "ਮਿਟ", [lit "minute"]);
    (lit "ਵੀਰ", [lit "thursday"]);
    (lit "ਸਕਰ", [lit "friday"]);
    (lit "ਸਾਲ", [lit "year"]);
    (lit "am", [lit "am"]);
    (lit "pm", [lit "pm"]);
    (lit "ਅਗ", [lit "august"]);
    (lit "ਐਤ", [lit "sunday"]);
    (lit "ਜਨ", [lit "june"; lit "january"]);
    (lit "ਦਸ", [lit "december"]);
    (lit "ਨਵ", [lit "november"]);
    (lit "ਪਦ", [lit "am"]);
    (lit "ਫਰ", [lit "february"]);
    (lit "ਬਧ", [lit "wednesday"]);
    (lit "ਮਈ", [lit "may"]);
    (lit "ਸਤ", [lit "september"]);
    (lit "ਸਮ", [lit "monday"]);
    (lit " ", [lit " "]);
    (lit "'", [lit ""]);
    (lit "+", [lit "+"]);
    (lit ",", [lit ""]);
    (lit "-", [lit "-"]);
    (lit ".", [lit "."]);
    (lit "/", [lit "/"]);
    (lit ":", [lit ":"]);
    (lit ";", [lit ""]);
    (lit "@", [lit ""]);
    (lit "[", [lit ""]);
    (lit "]", [lit ""]);
    (lit "z", [lit "z"]);
    (lit "|", [lit ""]);
    (lit "ਘ", [lit "hour"])];
    ld_reltype := [(lit "ਪਿਛਲਾ ਮਹੀਨਾ", lit "1 month ago");
    (lit "ਅਗਲਾ ਮਹੀਨਾ", lit "in 1 month");
    (lit "ਪਿਛਲਾ ਹਫਤਾ", lit "1 week ago");
    (lit "ਅਗਲਾ ਹਫਤਾ", lit "in 1 week");
    (lit "ਪਿਛਲਾ ਸਾਲ", lit "1 year ago");
    (lit "ਬੀਤਿਆ ਕਲਹ", lit "1 day ago");
    (lit "ਅਗਲਾ ਸਾਲ", lit "in 1 year");
    (lit "ਇਹ ਮਹੀਨਾ", lit "0 month ago");
    (lit "ਇਹ ਹਫਤਾ", lit "0 week ago");
    (lit "ਇਸ ਮਿਟ", lit "0 minute ago");
    (lit "ਇਹ ਸਾਲ", lit "0 year ago");
    (lit "ਇਸ ਘਟ", lit "0 hour ago");
    (lit "ਭਲਕ", lit "in 1 day");
    (lit "ਅਜ", lit "0 day ago");
    (lit "ਹਣ", lit "0 second ago")];
    ld_relrx := [(rx "(?i)(\d+[.,]?\d*) ਮਹੀਨਾ ਪਹਿਲਾ", lit "$1 month ago");
    (rx "(?i)(\d+[.,]?\d*) ਮਹੀਨ ਪਹਿਲਾ", lit "$1 month ago");
    (rx "(?i)(\d+[.,]?\d*) ਮਹੀਨਿਆ ਵਿਚ", lit "in $1 month");
    (rx "(?i)(\d+[.,]?\d*) ਸਕਿਟ ਪਹਿਲਾ", lit "$1 second ago");
    (rx "(?i)(\d+[.,]?\d*) ਹਫਤਾ ਪਹਿਲਾ", lit "$1 week ago");
    (rx "(?i)(\d+[.,]?\d*) ਘਟਾ ਪਹਿਲਾ", lit "$1 hour ago");
    (rx "(?i)(\d+[.,]?\d*) ਦਿਨ ਪਹਿਲਾ", lit "$1 day ago");
    (rx "(?i)(\d+[.,]?\d*) ਮਿਟ ਪਹਿਲਾ", lit "$1 minute ago");
    (rx "(?i)(\d+[.,]?\d*) ਸਕਿਟਾ ਵਿਚ", lit "in $1 second");
    (rx "(?i)(\d+[.,]?\d*) ਸਾਲ ਪਹਿਲਾ", lit "$1 year ago");
    (rx "(?i)(\d+[.,]?\d*) ਹਫਤ ਪਹਿਲਾ", lit "$1 week ago");
    (rx "(?i)(\d+[.,]?\d*) ਹਫਤਿਆ ਵਿਚ", lit "in $1 week");
    (rx "(?i)(\d+[.,]?\d*) ਘਟ ਪਹਿਲਾ", lit "$1 hour ago");
    (rx "(?i)(\d+[.,]?\d*) ਘਟਿਆ ਵਿਚ", lit "in $1 hour");
    (rx "(?i)(\d+[.,]?\d*) ਦਿਨਾ ਵਿਚ", lit "in $1 day");
    (rx "(?i)(\d+[.,]?\d*) ਮਹੀਨ ਵਿਚ", lit "in $1 month");
    (rx "(?i)(\d+[.,]?\d*) ਮਿਟਾ ਵਿਚ", lit "in $1 minute");
    (rx "(?i)(\d+[.,]?\d*) ਸਕਿਟ ਵਿਚ", lit "in $1 second");
    (rx "(?i)(\d+[.,]?\d*) ਸਾਲਾ ਵਿਚ", lit "in $1 year");
    (rx "(?i)(\d+[.,]?\d*) ਦਿਨ ਵਿਚ", lit "in $1 day");
    (rx "(?i)(\d+[.,]?\d*) ਮਿਟ ਵਿਚ", lit "in $1 minute");
    (rx "(?i)(\d+[.,]?\d*) ਸਾਲ ਵਿਚ", lit "in $1 year");
    (rx "(?i)(\d+[.,]?\d*) ਹਫਤ ਵਿਚ", lit "in $1 week");
    (rx "(?i)(\d+[.,]?\d*) ਘਟ ਵਿਚ", lit "in $1 hour")];
    ld_rx := Some (rx "(?i)(\A|[^\pL\pM\d]|_)(\d+[.,]?\d* ਮਹੀਨਾ ਪਹਿਲਾ|\d+[.,]?\d* ਮਹੀਨ ਪਹਿਲਾ|\d+[.,]?\d* ਮਹੀਨਿਆ ਵਿਚ|\d+[.,]?\d* ਸਕਿਟ ਪਹਿਲਾ|\d+[.,]?\d* ਹਫਤਾ ਪਹਿਲਾ|\d+[.,]?\d* ਘਟਾ ਪਹਿਲਾ|\d+[.,]?\d* ਦਿਨ ਪਹਿਲਾ|\d+[.,]?\d* ਮਿਟ ਪਹਿਲਾ|\d+[.,]?\d* ਸਕਿਟਾ ਵਿਚ|\d+[.,]?\d* ਸਾਲ ਪਹਿਲਾ|\d+[.,]?\d* ਹਫਤ ਪਹਿਲਾ|\d+[.,]?\d* ਹਫਤਿਆ ਵਿਚ|\d+[.,]?\d* ਘਟ ਪਹਿਲਾ|\d+[.,]?\d* ਘਟਿਆ ਵਿਚ|\d+[.,]?\d* ਦਿਨਾ ਵਿਚ|\d+[.,]?\d* ਮਹੀਨ ਵਿਚ|\d+[.,]?\d* ਮਿਟਾ ਵਿਚ|\d+[.,]?\d* ਸਕਿਟ ਵਿਚ|\d+[.,]?\d* ਸਾਲਾ ਵਿਚ|\d+[.,]?\d* ਦਿਨ ਵਿਚ|\d+[.,]?\d* ਮਿਟ ਵਿਚ|\d+[.,]?\d* ਸਾਲ ਵਿਚ|\d+[.,]?\d* ਹਫਤ ਵਿਚ|\d+[.,]?\d* ਘਟ ਵਿਚ)(\z|[^\pL\pM\d]|_)");
    ld_rx_exact := Some (rx "(?i)^(\d+[.,]?\d* ਮਹੀਨਾ ਪਹਿਲਾ|\d+[.,]?\d* ਮਹੀਨ ਪਹਿਲਾ|\d+[.,]?\d* ਮਹੀਨਿਆ ਵਿਚ|\d+[.,]?\d* ਸਕਿਟ ਪਹਿਲਾ|\d+[.,]?\d* ਹਫਤਾ ਪਹਿਲਾ|\d+[.,]?\d* ਘਟਾ ਪਹਿਲਾ|\d+[.,]?\d* ਦਿਨ ਪਹਿਲਾ|\d+[.,]?\d* ਮਿਟ ਪਹਿਲਾ|\d+[.,]?\d* ਸਕਿਟਾ ਵਿਚ|\d+[.,]?\d* ਸਾਲ ਪਹਿਲਾ|\d+[.,]?\d* ਹਫਤ ਪਹਿਲਾ|\d+[.,]?\d* ਹਫਤਿਆ ਵਿਚ|\d+[.,]?\d* ਘਟ ਪਹਿਲਾ|\d+[.,]?\d* ਘਟਿਆ ਵਿਚ|\d+[.,]?\d* ਦਿਨਾ ਵਿਚ|\d+[.,]?\d* ਮਹੀਨ ਵਿਚ|\d+[.,]?\d* ਮਿਟਾ ਵਿਚ|\d+[.,]?\d* ਸਕਿਟ ਵਿਚ|\d+[.,]?\d* ਸਾਲਾ ਵਿਚ|\d+[.,]?\d* ਦਿਨ ਵਿਚ|\d+[.,]?\d* ਮਿਟ ਵਿਚ|\d+[.,]?\d* ਸਾਲ ਵਿਚ|\d+[.,]?\d* ਹਫਤ ਵਿਚ|\d+[.,]?\d* ਘਟ ਵਿਚ)$");
    ld_known := [lit "ਪਿਛਲਾ ਮਹੀਨਾ";
    lit "ਅਗਲਾ ਮਹੀਨਾ";
    lit "ਪਿਛਲਾ ਹਫਤਾ";
    lit "ਅਗਲਾ ਹਫਤਾ";
    lit "ਪਿਛਲਾ ਸਾਲ";
    lit "ਬੀਤਿਆ ਕਲਹ";
    lit "ਅਗਲਾ ਸਾਲ";
    lit "ਇਹ ਮਹੀਨਾ";
    lit "ਸਨਿਚਰਵਾਰ";
    lit "ਇਹ ਹਫਤਾ";
    lit "ਇਸ ਮਿਟ";
    lit "ਇਹ ਸਾਲ";
    lit "ਮਗਲਵਾਰ";
    lit "ਵੀਰਵਾਰ";
    lit "ਸਕਰਵਾਰ";
    lit "ਅਕਤਬਰ";
    lit "ਇਸ ਘਟ";
    lit "ਐਤਵਾਰ";
    lit "ਜਨਵਰੀ";
    lit "ਫਰਵਰੀ";
    lit "ਬਧਵਾਰ";
    lit "ਮਹੀਨਾ";
    lit "ਸਨਿਚਰ";
    lit "ਸਮਵਾਰ";
    lit "ਅਗਸਤ";
    lit "ਅਪਰਲ";
    lit "ਜਲਾਈ";
    lit "ਦਸਬਰ";
    lit "ਨਵਬਰ";
    lit "ਮਾਰਚ";
    lit "ਸਕਿਟ";
    lit "ਸਤਬਰ";
    lit "ਹਫਤਾ";
    lit "gmt";
    lit "utc";
    lit "ਅਕਤ";
    lit "ਅਪਰ";
    lit "ਘਟਾ";
    lit "ਜਲਾ";
    lit "ਦਿਨ";
    lit "ਬਾਦ";
    lit "ਭਲਕ";
    lit "ਮਗਲ";
    lit "ਮਿਟ";
    lit "ਵੀਰ";
    lit "ਸਕਰ";
    lit "ਸਾਲ";
    lit "am";
    lit "pm";
    lit "ਅਗ";
    lit "ਅਜ";
    lit "ਐਤ";
    lit "ਜਨ";
    lit "ਦਸ";
    lit "ਨਵ";
    lit "ਪਦ";
    lit "ਫਰ";
    lit "ਬਧ";
    lit "ਮਈ";
    lit "ਸਤ";
    lit "ਸਮ";
    lit "ਹਣ";
    lit " ";
    lit "'";
    lit "+";
    lit ",";
    lit "-";
    lit ".";
    lit "/";
    lit ":";
    lit ";";
    lit "@";
    lit "[";
    lit "]";
    lit "z";
    lit "|";
    lit "ਘ"] |}.

(** pa.go:12-126 *)
Definition loc_pa : locale := Eval vm_compute in
  {| ld_name := lit "pa"; ld_order := lit "DMY"; ld_nospacing := false; ld_splitter := 0;
    ld_charset := runes (lit "cgtuzਅਆਇਈਐਕਗਘਚਛਜਟਣਤਦਧਨਪਫਬਭਮਰਲਵਸਹ਼ਾਿੀੁੂੇੈੋ੍ੰੱ");
    ld_abbr := [];
    ld_simpl := [];
    ld_trans := [(lit "ਸਨਿਚਰਵਾਰ", [lit "saturday"]);
    (lit "ਮਗਲਵਾਰ", [lit "tuesday"]);
    (lit "ਵੀਰਵਾਰ", [lit "thursday"]);
    (lit "ਸਕਰਵਾਰ", [lit "friday"]);
    (lit "ਅਕਤਬਰ", [lit "october"]);
    (lit "ਐਤਵਾਰ", [lit "sunday"]);
    (lit "ਜਨਵਰੀ", [lit "january"]);
    (lit "ਫਰਵਰੀ", [lit "february"]);
    (lit "ਬਧਵਾਰ", [lit "wednesday"]);
    (lit "ਮਹੀਨਾ", [lit "month"]);
    (lit "ਸਨਿਚਰ", [lit "saturday"]);
    (lit "ਸਮਵਾਰ", [lit "monday"]);
    (lit "ਅਗਸਤ", [lit "august"]);
    (lit "ਅਪਰਲ", [lit "april"]);
    (lit "ਜਲਾਈ", [lit "july"]);
    (lit "ਦਸਬਰ", [lit "december"]);
    (lit "ਨਵਬਰ", [lit "november"]);
    (lit "ਮਾਰਚ", [lit "march"]);
    (lit "ਸਕਿਟ", [lit "second"]);
    (lit "ਸਤਬਰ", [lit "september"]);
    (lit "ਹਫਤਾ", [lit "week"]);
    (lit "gmt", [lit "gmt"]);
    (lit "utc", [lit "utc"]);
    (lit "ਅਕਤ", [lit "october"]);
    (lit "ਅਪਰ", [lit "april"]);
    (lit "ਘਟਾ", [lit "hour"]);
    (lit "ਜਲਾ", [lit "july"]);
    (lit "ਦਿਨ", [lit "day"]);
    (lit "ਬਾਦ", [lit "pm"]);
    (lit "ਮਗਲ", [lit "tuesday"]);
    (lit "ਮਿਟ", [lit "minute"]);
    (lit "ਵੀਰ", [lit "thursday"]);
    (lit "ਸਕਰ", [lit "friday"]);
    (lit "ਸਾਲ", [lit "year"]);
    (lit "am", [lit "am"]);
    (lit "pm", [lit "pm"]);
    (lit "ਅਗ", [lit "august"]);
    (lit "ਐਤ", [lit "sunday"]);
    (lit "ਜਨ", [lit "june"; lit "january"]);
    (lit "ਦਸ", [lit "december"]);
    (lit "ਨਵ", [lit "november"]);
    (lit "ਪਦ", [lit "am"]);
    (lit "ਫਰ", [lit "february"]);
    (lit "ਬਧ", [lit "wednesday"]);
    (lit "ਮਈ", [lit "may"]);
    (lit "ਸਤ", [lit "september"]);
    (lit "ਸਮ", [lit "monday"]);
    (lit " ", [lit " "]);
    (lit "'", [lit ""]);
    (lit "+", [lit "+"]);
    (lit ",", [lit ""]);
    (lit "-", [lit "-"]);
    (lit ".", [lit "."]);
    (lit "/", [lit "/"]);
    (lit ":", [lit ":"]);
    (lit ";", [lit ""]);
    (lit "@", [lit ""]);
    (lit "[", [lit ""]);
    (lit "]", [lit ""]);
    (lit "z", [lit "z"]);
    (lit "|", [lit ""]);
    (lit "ਘ", [lit "hour"])];
    ld_reltype := [(lit "ਪਿਛਲਾ ਮਹੀਨਾ", lit "1 month ago");
    (lit "ਅਗਲਾ ਮਹੀਨਾ", lit "in 1 month");
    (lit "ਪਿਛਲਾ ਹਫਤਾ", lit "1 week ago");
    (lit "ਅਗਲਾ ਹਫਤਾ", lit "in 1 week");
    (lit "ਪਿਛਲਾ ਸਾਲ", lit "1 year ago");
    (lit "ਬੀਤਿਆ ਕਲਹ", lit "1 day ago");
    (lit "ਅਗਲਾ ਸਾਲ", lit "in 1 year");
    (lit "ਇਹ ਮਹੀਨਾ", lit "0 month ago");
    (lit "ਇਹ ਹਫਤਾ", lit "0 week ago");
    (lit "ਇਸ ਮਿਟ", lit "0 minute ago");
    (lit "ਇਹ ਸਾਲ", lit "0 year ago");
    (lit "ਇਸ ਘਟ", lit "0 hour ago");
    (lit "ਭਲਕ", lit "in 1 day");
    (lit "ਅਜ", lit "0 day ago");
    (lit "ਹਣ", lit "0 second ago")];
    ld_relrx := [(rx "(?i)(\d+[.,]?\d*) ਮਹੀਨਾ ਪਹਿਲਾ", lit "$1 month ago");
    (rx "(?i)(\d+[.,]?\d*) ਮਹੀਨ ਪਹਿਲਾ", lit "$1 month ago");
    (rx "(?i)(\d+[.,]?\d*) ਮਹੀਨਿਆ ਵਿਚ", lit "in $1 month");
    (rx "(?i)(\d+[.,]?\d*) ਸਕਿਟ ਪਹਿਲਾ", lit "$1 second ago");
    (rx "(?i)(\d+[.,]?\d*) ਹਫਤਾ ਪਹਿਲਾ", lit "$1 week ago");
    (rx "(?i)(\d+[.,]?\d*) ਘਟਾ ਪਹਿਲਾ", lit "$1 hour ago");
    (rx "(?i)(\d+[.,]?\d*) ਦਿਨ ਪਹਿਲਾ", lit "$1 day ago");
    (rx "(?i)(\d+[.,]?\d*) ਮਿਟ ਪਹਿਲਾ", lit "$1 minute ago");
    (rx "(?i)(\d+[.,]?\d*) ਸਕਿਟਾ ਵਿਚ", lit "in $1 second");
    (rx "(?i)(\d+[.,]?\d*) ਸਾਲ ਪਹਿਲਾ", lit "$1 year ago");
    (rx "(?i)(\d+[.,]?\d*) ਹਫਤ ਪਹਿਲਾ", lit "$1 week ago");
    (rx "(?i)(\d+[.,]?\d*) ਹਫਤਿਆ ਵਿਚ", lit "in $1 week");
    (rx "(?i)(\d+[.,]?\d*) ਘਟ ਪਹਿਲਾ", lit "$1 hour ago");
    (rx "(?i)(\d+[.,]?\d*) ਘਟਿਆ ਵਿਚ", lit "in $1 hour");
    (rx "(?i)(\d+[.,]?\d*) ਦਿਨਾ ਵਿਚ", lit "in $1 day");
    (rx "(?i)(\d+[.,]?\d*) ਮਹੀਨ ਵਿਚ", lit "in $1 month");
    (rx "(?i)(\d+[.,]?\d*) ਮਿਟਾ ਵਿਚ", lit "in $1 minute");
    (rx "(?i)(\d+[.,]?\d*) ਸਕਿਟ ਵਿਚ", lit "in $1 second");
    (rx "(?i)(\d+[.,]?\d*) ਸਾਲਾ ਵਿਚ", lit "in $1 year");
    (rx "(?i)(\d+[.,]?\d*) ਦਿਨ ਵਿਚ", lit "in $1 day");
    (rx "(?i)(\d+[.,]?\d*) ਮਿਟ ਵਿਚ", lit "in $1 minute");
    (rx "(?i)(\d+[.,]?\d*) ਸਾਲ ਵਿਚ", lit "in $1 year");
    (rx "(?i)(\d+[.,]?\d*) ਹਫਤ ਵਿਚ", lit "in $1 week");
    (rx "(?i)(\d+[.,]?\d*) ਘਟ ਵਿਚ", lit "in $1 hour")];
    ld_rx := Some (rx "(?i)(\A|[^\pL\pM\d]|_)(\d+[.,]?\d* ਮਹੀਨਾ ਪਹਿਲਾ|\d+[.,]?\d* ਮਹੀਨ ਪਹਿਲਾ|\d+[.,]?\d* ਮਹੀਨਿਆ ਵਿਚ|\d+[.,]?\d* ਸਕਿਟ ਪਹਿਲਾ|\d+[.,]?\d* ਹਫਤਾ ਪਹਿਲਾ|\d+[.,]?\d* ਘਟਾ ਪਹਿਲਾ|\d+[.,]?\d* ਦਿਨ ਪਹਿਲਾ|\d+[.,]?\d* ਮਿਟ ਪਹਿਲਾ|\d+[.,]?\d* ਸਕਿਟਾ ਵਿਚ|\d+[.,]?\d* ਸਾਲ ਪਹਿਲਾ|\d+[.,]?\d* ਹਫਤ ਪਹਿਲਾ|\d+[.,]?\d* ਹਫਤਿਆ ਵਿਚ|\d+[.,]?\d* ਘਟ ਪਹਿਲਾ|\d+[.,]?\d* ਘਟਿਆ ਵਿਚ|\d+[.,]?\d* ਦਿਨਾ ਵਿਚ|\d+[.,]?\d* ਮਹੀਨ ਵਿਚ|\d+[.,]?\d* ਮਿਟਾ ਵਿਚ|\d+[.,]?\d* ਸਕਿਟ ਵਿਚ|\d+[.,]?\d* ਸਾਲਾ ਵਿਚ|\d+[.,]?\d* ਦਿਨ ਵਿਚ|\d+[.,]?\d* ਮਿਟ ਵਿਚ|\d+[.,]?\d* ਸਾਲ ਵਿਚ|\d+[.,]?\d* ਹਫਤ ਵਿਚ|\d+[.,]?\d* ਘਟ ਵਿਚ)(\z|[^\pL\pM\d]|_)");
    ld_rx_exact := Some (rx "(?i)^(\d+[.,]?\d* ਮਹੀਨਾ ਪਹਿਲਾ|\d+[.,]?\d* ਮਹੀਨ ਪਹਿਲਾ|\d+[.,]?\d* ਮਹੀਨਿਆ ਵਿਚ|\d+[.,]?\d* ਸਕਿਟ ਪਹਿਲਾ|\d+[.,]?\d* ਹਫਤਾ ਪਹਿਲਾ|\d+[.,]?\d* ਘਟਾ ਪਹਿਲਾ|\d+[.,]?\d* ਦਿਨ ਪਹਿਲਾ|\d+[.,]?\d* ਮਿਟ ਪਹਿਲਾ|\d+[.,]?\d* ਸਕਿਟਾ ਵਿਚ|\d+[.,]?\d* ਸਾਲ ਪਹਿਲਾ|\d+[.,]?\d* ਹਫਤ ਪਹਿਲਾ|\d+[.,]?\d* ਹਫਤਿਆ ਵਿਚ|\d+[.,]?\d* ਘਟ ਪਹਿਲਾ|\d+[.,]?\d* ਘਟਿਆ ਵਿਚ|\d+[.,]?\d* ਦਿਨਾ ਵਿਚ|\d+[.,]?\d* ਮਹੀਨ ਵਿਚ|\d+[.,]?\d* ਮਿਟਾ ਵਿਚ|\d+[.,]?\d* ਸਕਿਟ ਵਿਚ|\d+[.,]?\d* ਸਾਲਾ ਵਿਚ|\d+[.,]?\d* ਦਿਨ ਵਿਚ|\d+[.,]?\d* ਮਿਟ ਵਿਚ|\d+[.,]?\d* ਸਾਲ ਵਿਚ|\d+[.,]?\d* ਹਫਤ ਵਿਚ|\d+[.,]?\d* ਘਟ ਵਿਚ)$");
    ld_known := [lit "ਪਿਛਲਾ ਮਹੀਨਾ";
    lit "ਅਗਲਾ ਮਹੀਨਾ";
    lit "ਪਿਛਲਾ ਹਫਤਾ";
    lit "ਅਗਲਾ ਹਫਤਾ";
    lit "ਪਿਛਲਾ ਸਾਲ";
    lit "ਬੀਤਿਆ ਕਲਹ";
    lit "ਅਗਲਾ ਸਾਲ";
    lit "ਇਹ ਮਹੀਨਾ";
    lit "ਸਨਿਚਰਵਾਰ";
    lit "ਇਹ ਹਫਤਾ";
    lit "ਇਸ ਮਿਟ";
    lit "ਇਹ ਸਾਲ";
    lit "ਮਗਲਵਾਰ";
    lit "ਵੀਰਵਾਰ";
    lit "ਸਕਰਵਾਰ";
    lit "ਅਕਤਬਰ";
    lit "ਇਸ ਘਟ";
    lit "ਐਤਵਾਰ";
    lit "ਜਨਵਰੀ";
    lit "ਫਰਵਰੀ";
    lit "ਬਧਵਾਰ";
    lit "ਮਹੀਨਾ";
    lit "ਸਨਿਚਰ";
    lit "ਸਮਵਾਰ";
    lit "ਅਗਸਤ";
    lit "ਅਪਰਲ";
    lit "ਜਲਾਈ";
    lit "ਦਸਬਰ";
    lit "ਨਵਬਰ";
    lit "ਮਾਰਚ";
    lit "ਸਕਿਟ";
    lit "ਸਤਬਰ";
    lit "ਹਫਤਾ";
    lit "gmt";
    lit "utc";
    lit "ਅਕਤ";
    lit "ਅਪਰ";
    lit "ਘਟਾ";
    lit "ਜਲਾ";
    lit "ਦਿਨ";
    lit "ਬਾਦ";
    lit "ਭਲਕ";
    lit "ਮਗਲ";
    lit "ਮਿਟ";
    lit "ਵੀਰ";
    lit "ਸਕਰ";
    lit "ਸਾਲ";
    lit "am";
    lit "pm";
    lit "ਅਗ";
    lit "ਅਜ";
    lit "ਐਤ";
    lit "ਜਨ";
    lit "ਦਸ";
    lit "ਨਵ";
    lit "ਪਦ";
    lit "ਫਰ";
    lit "ਬਧ";
    lit "ਮਈ";
    lit "ਸਤ";
    lit "ਸਮ";
    lit "ਹਣ";
    lit " ";
    lit "'";
    lit "+";
    lit ",";
    lit "-";
    lit ".";
    lit "/";
    lit ":";
    lit ";";
    lit "@";
    lit "[";
    lit "]";
    lit "z";
    lit "|";
    lit "ਘ"] |}.

(** pl.go:12-231 *)
Definition loc_pl : locale := Eval vm_compute in
  {| ld_name := lit "pl"; ld_order := lit "DMY"; ld_nospacing := false; ld_splitter := 1;
    ld_charset := runes (lit "bcdegijklnorstuwyząęłńśź");
    ld_abbr := [lit "r"];
    ld_simpl := [(rx "(?i)(\A|[^\pL\pM\d_])dzis(\z|[^\pL\pM\d_])", lit "${1}0 dnia${2}");
    (rx "(?i)(\A|[^\pL\pM\d_])dzisiaj(\z|[^\pL\pM\d_])", lit "${1}0 dnia${2}");
    (rx "(?i)(\A|[^\pL\pM\d_])onegdaj(\z|[^\pL\pM\d_])", lit "${1}2 dnia${2}");
    (rx "(?i)(\A|[^\pL\pM\d_])przedwczoraj(\z|[^\pL\pM\d_])", lit "${1}2 dnia temu${2}");
    (rx "(?i)(\A|[^\pL\pM\d_])jutro(\z|[^\pL\pM\d_])", lit "${1}za 1 dnia${2}");
    (rx "(?i)(\A|[^\pL\pM\d_])pojutrze(\z|[^\pL\pM\d_])", lit "${1}za 2 dnia${2}")];
    ld_trans := [(lit "pazdziernika", [lit "october"]);
    (lit "pazdzierniku", [lit "october"]);
    (lit "poniedzialek", [lit "monday"]);
    (lit "poniedziałek", [lit "monday"]);
    (lit "listopadzie", [lit "november"]);
    (lit "pazdziernik", [lit "october"]);
    (lit "listopada", [lit "november"]);
    (lit "niedziela", [lit "sunday"]);
    (lit "niedziele", [lit "sunday"]);
    (lit "czerwiec", [lit "june"]);
    (lit "czwartek", [lit "thursday"]);
    (lit "grudzien", [lit "december"]);
    (lit "kwiecien", [lit "april"]);
    (lit "kwietnia", [lit "april"]);
    (lit "kwietniu", [lit "april"]);
    (lit "listopad", [lit "november"]);
    (lit "miesiaca", [lit "month"]);
    (lit "miesiace", [lit "month"]);
    (lit "miesiecy", [lit "month"]);
    (lit "sierpien", [lit "august"]);
    (lit "sierpnia", [lit "august"]);
    (lit "sierpniu", [lit "august"]);
    (lit "stycznia", [lit "january"]);
    (lit "styczniu", [lit "january"]);
    (lit "tygodnie", [lit "week"]);
    (lit "wrzesien", [lit "september"]);
    (lit "wrzesnia", [lit "september"]);
    (lit "wrzesniu", [lit "september"]);
    (lit "czerwca", [lit "june"]);
    (lit "czerwcu", [lit "june"]);
    (lit "godzina", [lit "hour"]);
    (lit "godzine", [lit "hour"]);
    (lit "godziny", [lit "hour"]);
    (lit "grudnia", [lit "december"]);
    (lit "grudniu", [lit "december"]);
    (lit "miesiac", [lit "month"]);
    (lit "sekunda", [lit "second"]);
    (lit "sekunde", [lit "second"]);
    (lit "sekundy", [lit "second"]);
    (lit "styczen", [lit "january"]);
    (lit "tydzien", [lit "week"]);
    (lit "tygodni", [lit "week"]);
    (lit "godzin", [lit "hour"]);
    (lit "lipiec", [lit "july"]);
    (lit "lutego", [lit "february"]);
    (lit "marzec", [lit "march"]);
    (lit "minuta", [lit "minute"]);
    (lit "minute", [lit "minute"]);
    (lit "minuty", [lit "minute"]);
    (lit "piatek", [lit "friday"]);
    (lit "sekund", [lit "second"]);
    (lit "sobota", [lit "saturday"]);
    (lit "sobote", [lit "saturday"]);
    (lit "wtorek", [lit "tuesday"]);
    (lit "dzien", [lit "day"]);
    (lit "lipca", [lit "july"]);
    (lit "lipcu", [lit "july"]);
    (lit "lutym", [lit "february"]);
    (lit "marca", [lit "march"]);
    (lit "marcu", [lit "march"]);
    (lit "minut", [lit "minute"]);
    (lit "niedz", [lit "sunday"]);
    (lit "sroda", [lit "wednesday"]);
    (lit "srode", [lit "wednesday"]);
    (lit "dnia", [lit "day"]);
    (lit "dniu", [lit "day"]);
    (lit "godz", [lit "hour"]);
    (lit "kwie", [lit "april"]);
    (lit "lata", [lit "year"]);
    (lit "luty", [lit "february"]);
    (lit "maja", [lit "may"]);
    (lit "maju", [lit "may"]);
    (lit "mies", [lit "month"]);
    (lit "roku", [lit ""]);
    (lit "temu", [lit "ago"]);
    (lit "tydz", [lit "week"]);
    (lit "cze", [lit "june"]);
    (lit "czw", [lit "thursday"]);
    (lit "dni", [lit "day"]);
    (lit "gmt", [lit "gmt"]);
    (lit "gru", [lit "december"]);
    (lit "kwi", [lit "april"]);
    (lit "lat", [lit "year"]);
    (lit "lip", [lit "july"]);
    (lit "lis", [lit "november"]);
    (lit "lut", [lit "february"]);
    (lit "maj", [lit "may"]);
    (lit "mar", [lit "march"]);
    (lit "min", [lit "minute"]);
    (lit "nie", [lit "sunday"]);
    (lit "paz", [lit "october"]);
    (lit "pia", [lit "friday"]);
    (lit "pon", [lit "monday"]);
    (lit "rok", [lit "year"]);
    (lit "sek", [lit "second"]);
    (lit "sie", [lit "august"]);
    (lit "sob", [lit "saturday"]);
    (lit "sro", [lit "wednesday"]);
    (lit "sty", [lit "january"]);
    (lit "utc", [lit "utc"]);
    (lit "wrz", [lit "september"]);
    (lit "wto", [lit "tuesday"]);
    (lit "am", [lit "am"]);
    (lit "cz", [lit "thursday"]);
    (lit "mc", [lit "month"]);
    (lit "nd", [lit "sunday"]);
    (lit "pi", [lit "friday"]);
    (lit "pm", [lit "pm"]);
    (lit "pn", [lit "monday"]);
    (lit "pt", [lit "friday"]);
    (lit "r.", [lit ""]);
    (lit "sb", [lit "saturday"]);
    (lit "so", [lit "saturday"]);
    (lit "sr", [lit "wednesday"]);
    (lit "wt", [lit "tuesday"]);
    (lit "za", [lit "in"]);
    (lit " ", [lit " "]);
    (lit "'", [lit ""]);
    (lit "+", [lit "+"]);
    (lit ",", [lit ""]);
    (lit "-", [lit "-"]);
    (lit ".", [lit "."]);
    (lit "/", [lit "/"]);
    (lit ":", [lit ":"]);
    (lit ";", [lit ""]);
    (lit "@", [lit ""]);
    (lit "[", [lit ""]);
    (lit "]", [lit ""]);
    (lit "g", [lit "hour"]);
    (lit "i", [lit ""]);
    (lit "o", [lit ""]);
    (lit "r", [lit "year"]);
    (lit "s", [lit "second"]);
    (lit "w", [lit ""]);
    (lit "z", [lit "z"]);
    (lit "|", [lit ""])];
    ld_reltype := [(lit "w przyszłym miesiacu", lit "in 1 month");
    (lit "w przyszłym tygodniu", lit "in 1 week");
    (lit "w zeszłym miesiacu", lit "1 month ago");
    (lit "w zeszłym tygodniu", lit "1 week ago");
    (lit "w przyszłym roku", lit "in 1 year");
    (lit "w tym miesiacu", lit "0 month ago");
    (lit "w tym tygodniu", lit "0 week ago");
    (lit "w zeszłym roku", lit "1 year ago");
    (lit "ta godzina", lit "0 hour ago");
    (lit "w tym roku", lit "0 year ago");
    (lit "ta minuta", lit "0 minute ago");
    (lit "dzisiaj", lit "0 day ago");
    (lit "wczoraj", lit "1 day ago");
    (lit "jutro", lit "in 1 day");
    (lit "teraz", lit "0 second ago")];
    ld_relrx := [(rx "(?i)(\d+[.,]?\d*) miesiaca temu", lit "$1 month ago");
    (rx "(?i)(\d+[.,]?\d*) tygodnia temu", lit "$1 week ago");
    (rx "(?i)(\d+[.,]?\d*) godzine temu", lit "$1 hour ago");
    (rx "(?i)(\d+[.,]?\d*) godziny temu", lit "$1 hour ago");
    (rx "(?i)(\d+[.,]?\d*) miesiac temu", lit "$1 month ago");
    (rx "(?i)(\d+[.,]?\d*) sekunde temu", lit "$1 second ago");
    (rx "(?i)(\d+[.,]?\d*) sekundy temu", lit "$1 second ago");
    (rx "(?i)(\d+[.,]?\d*) tydzien temu", lit "$1 week ago");
    (rx "(?i)(\d+[.,]?\d*) minute temu", lit "$1 minute ago");
    (rx "(?i)(\d+[.,]?\d*) minuty temu", lit "$1 minute ago");
    (rx "(?i)za (\d+[.,]?\d*) miesiaca", lit "in $1 month");
    (rx "(?i)za (\d+[.,]?\d*) tygodnia", lit "in $1 week");
    (rx "(?i)(\d+[.,]?\d*) dzien temu", lit "$1 day ago");
    (rx "(?i)za (\d+[.,]?\d*) godzine", lit "in $1 hour");
    (rx "(?i)za (\d+[.,]?\d*) godziny", lit "in $1 hour");
    (rx "(?i)za (\d+[.,]?\d*) miesiac", lit "in $1 month");
    (rx "(?i)za (\d+[.,]?\d*) sekunde", lit "in $1 second");
    (rx "(?i)za (\d+[.,]?\d*) sekundy", lit "in $1 second");
    (rx "(?i)za (\d+[.,]?\d*) tydzien", lit "in $1 week");
    (rx "(?i)(\d+[.,]?\d*) dnia temu", lit "$1 day ago");
    (rx "(?i)(\d+[.,]?\d*) godz temu", lit "$1 hour ago");
    (rx "(?i)(\d+[.,]?\d*) mies temu", lit "$1 month ago");
    (rx "(?i)(\d+[.,]?\d*) roku temu", lit "$1 year ago");
    (rx "(?i)(\d+[.,]?\d*) tydz temu", lit "$1 week ago");
    (rx "(?i)za (\d+[.,]?\d*) minute", lit "in $1 minute");
    (rx "(?i)za (\d+[.,]?\d*) minuty", lit "in $1 minute");
    (rx "(?i)(\d+[.,]?\d*) min temu", lit "$1 minute ago");
    (rx "(?i)(\d+[.,]?\d*) rok temu", lit "$1 year ago");
    (rx "(?i)(\d+[.,]?\d*) sek temu", lit "$1 second ago");
    (rx "(?i)(\d+[.,]?\d*) tyg temu", lit "$1 week ago");
    (rx "(?i)za (\d+[.,]?\d*) dzien", lit "in $1 day");
    (rx "(?i)za (\d+[.,]?\d*) dnia", lit "in $1 day");
    (rx "(?i)za (\d+[.,]?\d*) godz", lit "in $1 hour");
    (rx "(?i)za (\d+[.,]?\d*) mies", lit "in $1 month");
    (rx "(?i)za (\d+[.,]?\d*) roku", lit "in $1 year");
    (rx "(?i)za (\d+[.,]?\d*) tydz", lit "in $1 week");
    (rx "(?i)(\d+[.,]?\d*) g temu", lit "$1 hour ago");
    (rx "(?i)(\d+[.,]?\d*) s temu", lit "$1 second ago");
    (rx "(?i)za (\d+[.,]?\d*) min", lit "in $1 minute");
    (rx "(?i)za (\d+[.,]?\d*) rok", lit "in $1 year");
    (rx "(?i)za (\d+[.,]?\d*) sek", lit "in $1 second");
    (rx "(?i)za (\d+[.,]?\d*) tyg", lit "in $1 week");
    (rx "(?i)–(\d+[.,]?\d*) mies", lit "$1 month ago");
    (rx "(?i)za (\d+[.,]?\d*) g", lit "in $1 hour");
    (rx "(?i)za (\d+[.,]?\d*) s", lit "in $1 second")];
    ld_rx := Some (rx "(?i)(\A|[^\pL\pM\d]|_)(\d+[.,]?\d* miesiaca temu|\d+[.,]?\d* tygodnia temu|\d+[.,]?\d* godzine temu|\d+[.,]?\d* godziny temu|\d+[.,]?\d* miesiac temu|\d+[.,]?\d* sekunde temu|\d+[.,]?\d* sekundy temu|\d+[.,]?\d* tydzien temu|\d+[.,]?\d* minute temu|\d+[.,]?\d* minuty temu|za \d+[.,]?\d* miesiaca|za \d+[.,]?\d* tygodnia|\d+[.,]?\d* dzien temu|za \d+[.,]?\d* godzine|za \d+[.,]?\d* godziny|za \d+[.,]?\d* miesiac|za \d+[.,]?\d* sekunde|za \d+[.,]?\d* sekundy|za \d+[.,]?\d* tydzien|\d+[.,]?\d* dnia temu|\d+[.,]?\d* godz temu|\d+[.,]?\d* mies temu|\d+[.,]?\d* roku temu|\d+[.,]?\d* tydz temu|za \d+[.,]?\d* minute|za \d+[.,]?\d* minuty|\d+[.,]?\d* min temu|\d+[.,]?\d* rok temu|\d+[.,]?\d* sek temu|\d+[.,]?\d* tyg temu|za \d+[.,]?\d* dzien|za \d+[.,]?\d* dnia|za \d+[.,]?\d* godz|za \d+[.,]?\d* mies|za \d+[.,]?\d* roku|za \d+[.,]?\d* tydz|\d+[.,]?\d* g temu|\d+[.,]?\d* s temu|za \d+[.,]?\d* min|za \d+[.,]?\d* rok|za \d+[.,]?\d* sek|za \d+[.,]?\d* tyg|–\d+[.,]?\d* mies|za \d+[.,]?\d* g|za \d+[.,]?\d* s)(\z|[^\pL\pM\d]|_)");
    ld_rx_exact := Some (rx "(?i)^(\d+[.,]?\d* miesiaca temu|\d+[.,]?\d* tygodnia temu|\d+[.,]?\d* godzine temu|\d+[.,]?\d* godziny temu|\d+[.,]?\d* miesiac temu|\d+[.,]?\d* sekunde temu|\d+[.,]?\d* sekundy temu|\d+[.,]?\d* tydzien temu|\d+[.,]?\d* minute temu|\d+[.,]?\d* minuty temu|za \d+[.,]?\d* miesiaca|za \d+[.,]?\d* tygodnia|\d+[.,]?\d* dzien temu|za \d+[.,]?\d* godzine|za \d+[.,]?\d* godziny|za \d+[.,]?\d* miesiac|za \d+[.,]?\d* sekunde|za \d+[.,]?\d* sekundy|za \d+[.,]?\d* tydzien|\d+[.,]?\d* dnia temu|\d+[.,]?\d* godz temu|\d+[.,]?\d* mies temu|\d+[.,]?\d* roku temu|\d+[.,]?\d* tydz temu|za \d+[.,]?\d* minute|za \d+[.,]?\d* minuty|\d+[.,]?\d* min temu|\d+[.,]?\d* rok temu|\d+[.,]?\d* sek temu|\d+[.,]?\d* tyg temu|za \d+[.,]?\d* dzien|za \d+[.,]?\d* dnia|za \d+[.,]?\d* godz|za \d+[.,]?\d* mies|za \d+[.,]?\d* roku|za \d+[.,]?\d* tydz|\d+[.,]?\d* g temu|\d+[.,]?\d* s temu|za \d+[.,]?\d* min|za \d+[.,]?\d* rok|za \d+[.,]?\d* sek|za \d+[.,]?\d* tyg|–\d+[.,]?\d* mies|za \d+[.,]?\d* g|za \d+[.,]?\d* s)$");
    ld_known := [lit "w przyszłym miesiacu";
    lit "w przyszłym tygodniu";
    lit "w zeszłym miesiacu";
    lit "w zeszłym tygodniu";
    lit "w przyszłym roku";
    lit "w tym miesiacu";
    lit "w tym tygodniu";
    lit "w zeszłym roku";
    lit "pazdziernika";
    lit "pazdzierniku";
    lit "poniedzialek";
    lit "poniedziałek";
    lit "listopadzie";
    lit "pazdziernik";
    lit "ta godzina";
    lit "w tym roku";
    lit "listopada";
    lit "niedziela";
    lit "niedziele";
    lit "ta minuta";
    lit "czerwiec";
    lit "czwartek";
    lit "grudzien";
    lit "kwiecien";
    lit "kwietnia";
    lit "kwietniu";
    lit "listopad";
    lit "miesiaca";
    lit "miesiace";
    lit "miesiecy";
    lit "sierpien";
    lit "sierpnia";
    lit "sierpniu";
    lit "stycznia";
    lit "styczniu";
    lit "tygodnie";
    lit "wrzesien";
    lit "wrzesnia";
    lit "wrzesniu";
    lit "czerwca";
    lit "czerwcu";
    lit "dzisiaj";
    lit "godzina";
    lit "godzine";
    lit "godziny";
    lit "grudnia";
    lit "grudniu";
    lit "miesiac";
    lit "sekunda";
    lit "sekunde";
    lit "sekundy";
    lit "styczen";
    lit "tydzien";
    lit "tygodni";
    lit "wczoraj";
    lit "godzin";
    lit "lipiec";
    lit "lutego";
    lit "marzec";
    lit "minuta";
    lit "minute";
    lit "minuty";
    lit "piatek";
    lit "sekund";
    lit "sobota";
    lit "sobote";
    lit "wtorek";
    lit "dzien";
    lit "jutro";
    lit "lipca";
    lit "lipcu";
    lit "lutym";
    lit "marca";
    lit "marcu";
    lit "minut";
    lit "niedz";
    lit "sroda";
    lit "srode";
    lit "teraz";
    lit "dnia";
    lit "dniu";
    lit "godz";
    lit "kwie";
    lit "lata";
    lit "luty";
    lit "maja";
    lit "maju";
    lit "mies";
    lit "roku";
    lit "temu";
    lit "tydz";
    lit "cze";
    lit "czw";
    lit "dni";
    lit "gmt";
    lit "gru";
    lit "kwi";
    lit "lat";
    lit "lip";
    lit "lis";
    lit "lut";
    lit "maj";
    lit "mar";
    lit "min";
    lit "nie";
    lit "paz";
    lit "pia";
    lit "pon";
    lit "rok";
    lit "sek";
    lit "sie";
    lit "sob";
    lit "sro";
    lit "sty";
    lit "utc";
    lit "wrz";
    lit "wto";
    lit "am";
    lit "cz";
    lit "mc";
    lit "nd";
    lit "pi";
    lit "pm";
    lit "pn";
    lit "pt";
    lit "r.";
    lit "sb";
    lit "so";
    lit "sr";
    lit "wt";
    lit "za";
    lit " ";
    lit "'";
    lit "+";
    lit ",";
    lit "-";
    lit ".";
    lit "/";
    lit ":";
    lit ";";
    lit "@";
    lit "[";
    lit "]";
    lit "g";
    lit "i";
    lit "o";
    lit "r";
    lit "s";
    lit "w";
    lit "z";
    lit "|"] |}.

(** ps.go:10-80 *)
Definition loc_ps : locale := Eval vm_compute in
  {| ld_name := lit "ps"; ld_order := lit "YMD"; ld_nospacing := false; ld_splitter := 0;
    ld_charset := runes (lit "cdeghiklnorstuwxyzابتجدرسشعغفلمنهويپچکګیۍ‌");
    ld_abbr := [];
    ld_simpl := [];
    ld_trans := [(lit "چهارشنبه", [lit "wednesday"]);
    (lit "سه‌شنبه", [lit "tuesday"]);
    (lit "پنجشنبه", [lit "thursday"]);
    (lit "minute", [lit "minute"]);
    (lit "second", [lit "second"]);
    (lit "اکتوبر", [lit "october"]);
    (lit "دوشنبه", [lit "monday"]);
    (lit "سپتمبر", [lit "september"]);
    (lit "فبروري", [lit "february"]);
    (lit "یکشنبه", [lit "sunday"]);
    (lit "month", [lit "month"]);
    (lit "اپریل", [lit "april"]);
    (lit "جنوري", [lit "january"]);
    (lit "جولای", [lit "july"]);
    (lit "دسمبر", [lit "december"]);
    (lit "نومبر", [lit "november"]);
    (lit "hour", [lit "hour"]);
    (lit "week", [lit "week"]);
    (lit "year", [lit "year"]);
    (lit "اګست", [lit "august"]);
    (lit "جمعه", [lit "friday"]);
    (lit "شنبه", [lit "saturday"]);
    (lit "مارچ", [lit "march"]);
    (lit "day", [lit "day"]);
    (lit "gmt", [lit "gmt"]);
    (lit "utc", [lit "utc"]);
    (lit "جون", [lit "june"]);
    (lit "am", [lit "am"]);
    (lit "pm", [lit "pm"]);
    (lit "غم", [lit "am"]);
    (lit "غو", [lit "pm"]);
    (lit "مۍ", [lit "may"]);
    (lit " ", [lit " "]);
    (lit "'", [lit ""]);
    (lit "+", [lit "+"]);
    (lit ",", [lit ""]);
    (lit "-", [lit "-"]);
    (lit ".", [lit "."]);
    (lit "/", [lit "/"]);
    (lit ":", [lit ":"]);
    (lit ";", [lit ""]);
    (lit "@", [lit ""]);
    (lit "[", [lit ""]);
    (lit "]", [lit ""]);
    (lit "z", [lit "z"]);
    (lit "|", [lit ""])];
    ld_reltype := [(lit "this minute", lit "0 minute ago");
    (lit "last month", lit "1 month ago");
    (lit "next month", lit "in 1 month");
    (lit "this month", lit "0 month ago");
    (lit "last week", lit "1 week ago");
    (lit "last year", lit "1 year ago");
    (lit "next week", lit "in 1 week");
    (lit "next year", lit "in 1 year");
    (lit "this hour", lit "0 hour ago");
    (lit "this week", lit "0 week ago");
    (lit "this year", lit "0 year ago");
    (lit "yesterday", lit "1 day ago");
    (lit "tomorrow", lit "in 1 day");
    (lit "today", lit "0 day ago");
    (lit "now", lit "0 second ago")];
    ld_relrx := [];
    ld_rx := None;
    ld_rx_exact := None;
    ld_known := [lit "this minute";
    lit "last month";
    lit "next month";
    lit "this month";
    lit "last week";
    lit "last year";
    lit "next week";
    lit "next year";
    lit "this hour";
    lit "this week";
    lit "this year";
    lit "yesterday";
    lit "tomorrow";
    lit "چهارشنبه";
    lit "سه‌شنبه";
    lit "پنجشنبه";
    lit "minute";
    lit "second";
    lit "اکتوبر";
    lit "دوشنبه";
    lit "سپتمبر";
    lit "فبروري";
    lit "یکشنبه";
    lit "month";
    lit "today";
    lit "اپریل";
    lit "جنوري";
    lit "جولای";
    lit "دسمبر";
    lit "نومبر";
    lit "hour";
    lit "week";
    lit "year";
    lit "اګست";
    lit "جمعه";
    lit "شنبه";
    lit "مارچ";
    lit "day";
    lit "gmt";
    lit "now";
    lit "utc";
    lit "جون";
    lit "am";
    lit "pm";
    lit "غم";
    lit "غو";
    lit "مۍ";
    lit " ";
    lit "'";
    lit "+";
    lit ",";
    lit "-";
    lit ".";
    lit "/";
    lit ":";
    lit ";";
    lit "@";
    lit "[";
    lit "]";
    lit "z";
    lit "|"] |}.

(** pt.go:23-185 *)
Definition loc_pt : locale := Eval vm_compute in
  {| ld_name := lit "pt"; ld_order := lit "DMY"; ld_nospacing := false; ld_splitter := 1;
    ld_charset := runes (lit "-bcdefghijlnorstuvxzáãçêó");
    ld_abbr := [];
    ld_simpl := [(rx "(?i)(\A|[^\pL\pM\d_])uma(\z|[^\pL\pM\d_])", lit "${1}1${2}");
    (rx "(?i)(\A|[^\pL\pM\d_])um(\z|[^\pL\pM\d_])", lit "${1}1${2}");
    (rx "(?i)(\A|[^\pL\pM\d_])alguns segundos(\z|[^\pL\pM\d_])", lit "${1}44 segundos${2}")];
    ld_trans := [(lit "segunda-feira", [lit "monday"]);
    (lit "quarta-feira", [lit "wednesday"]);
    (lit "quinta-feira", [lit "thursday"]);
    (lit "sexta-feira", [lit "friday"]);
    (lit "terca-feira", [lit "tuesday"]);
    (lit "fevereiro", [lit "february"]);
    (lit "septembro", [lit "september"]);
    (lit "dezembro", [lit "december"]);
    (lit "novembro", [lit "november"]);
    (lit "segundos", [lit "second"]);
    (lit "setembro", [lit "september"]);
    (lit "domingo", [lit "sunday"]);
    (lit "janeiro", [lit "january"]);
    (lit "minutos", [lit "minute"]);
    (lit "outubro", [lit "october"]);
    (lit "segunda", [lit "monday"]);
    (lit "segundo", [lit "second"]);
    (lit "semanas", [lit "week"]);
    (lit "agosto", [lit "august"]);
    (lit "minuto", [lit "minute"]);
    (lit "quarta", [lit "wednesday"]);
    (lit "quinta", [lit "thursday"]);
    (lit "sabado", [lit "saturday"]);
    (lit "semana", [lit "week"]);
    (lit "abril", [lit "april"]);
    (lit "atras", [lit "ago"]);
    (lit "cerca", [lit ""]);
    (lit "horas", [lit "hour"]);
    (lit "julho", [lit "july"]);
    (lit "junho", [lit "june"]);
    (lit "marco", [lit "march"]);
    (lit "meses", [lit "month"]);
    (lit "sexta", [lit "friday"]);
    (lit "terca", [lit "tuesday"]);
    (lit "anos", [lit "year"]);
    (lit "dias", [lit "day"]);
    (lit "hora", [lit "hour"]);
    (lit "maio", [lit "may"]);
    (lit "abr", [lit "april"]);
    (lit "ago", [lit "august"]);
    (lit "ano", [lit "year"]);
    (lit "dez", [lit "december"]);
    (lit "dia", [lit "day"]);
    (lit "dom", [lit "sunday"]);
    (lit "fev", [lit "february"]);
    (lit "gmt", [lit "gmt"]);
    (lit "jan", [lit "january"]);
    (lit "jul", [lit "july"]);
    (lit "jun", [lit "june"]);
    (lit "mai", [lit "may"]);
    (lit "mar", [lit "march"]);
    (lit "mes", [lit "month"]);
    (lit "min", [lit "minute"]);
    (lit "nov", [lit "november"]);
    (lit "out", [lit "october"]);
    (lit "qua", [lit "wednesday"]);
    (lit "qui", [lit "thursday"]);
    (lit "sab", [lit "saturday"]);
    (lit "seg", [lit "monday"; lit "second"]);
    (lit "sem", [lit "week"]);
    (lit "set", [lit "september"]);
    (lit "sex", [lit "friday"]);
    (lit "ter", [lit "tuesday"]);
    (lit "utc", [lit "utc"]);
    (lit "am", [lit "am"]);
    (lit "as", [lit ""]);
    (lit "de", [lit ""]);
    (lit "em", [lit "in"]);
    (lit "ha", [lit "ago"]);
    (lit "pm", [lit "pm"]);
    (lit " ", [lit " "]);
    (lit "'", [lit ""]);
    (lit "+", [lit "+"]);
    (lit ",", [lit ""]);
    (lit "-", [lit "-"]);
    (lit ".", [lit "."]);
    (lit "/", [lit "/"]);
    (lit ":", [lit ":"]);
    (lit ";", [lit ""]);
    (lit "@", [lit ""]);
    (lit "[", [lit ""]);
    (lit "]", [lit ""]);
    (lit "e", [lit ""]);
    (lit "h", [lit "hour"]);
    (lit "m", [lit "minute"]);
    (lit "s", [lit "second"]);
    (lit "z", [lit "z"]);
    (lit "|", [lit ""])];
    ld_reltype := [(lit "proxima semana", lit "in 1 week");
    (lit "semana passada", lit "1 week ago");
    (lit "ano passado", lit "1 year ago");
    (lit "esta semana", lit "0 week ago");
    (lit "este minuto", lit "0 minute ago");
    (lit "mes passado", lit "1 month ago");
    (lit "proximo ano", lit "in 1 year");
    (lit "proximo mes", lit "in 1 month");
    (lit "anteontem", lit "2 day ago");
    (lit "esta hora", lit "0 hour ago");
    (lit "este ano", lit "0 year ago");
    (lit "este mes", lit "0 month ago");
    (lit "amanha", lit "in 1 day");
    (lit "agora", lit "0 second ago");
    (lit "ontem", lit "1 day ago");
    (lit "hoje", lit "0 day ago")];
    ld_relrx := [(rx "(?i)em (\d+[.,]?\d*) segundos", lit "in $1 second");
    (rx "(?i)ha (\d+[.,]?\d*) segundos", lit "$1 second ago");
    (rx "(?i)em (\d+[.,]?\d*) minutos", lit "in $1 minute");
    (rx "(?i)em (\d+[.,]?\d*) segundo", lit "in $1 second");
    (rx "(?i)em (\d+[.,]?\d*) semanas", lit "in $1 week");
    (rx "(?i)ha (\d+[.,]?\d*) minutos", lit "$1 minute ago");
    (rx "(?i)ha (\d+[.,]?\d*) segundo", lit "$1 second ago");
    (rx "(?i)ha (\d+[.,]?\d*) semanas", lit "$1 week ago");
    (rx "(?i)em (\d+[.,]?\d*) minuto", lit "in $1 minute");
    (rx "(?i)em (\d+[.,]?\d*) semana", lit "in $1 week");
    (rx "(?i)ha (\d+[.,]?\d*) minuto", lit "$1 minute ago");
    (rx "(?i)ha (\d+[.,]?\d*) semana", lit "$1 week ago");
    (rx "(?i)em (\d+[.,]?\d*) horas", lit "in $1 hour");
    (rx "(?i)em (\d+[.,]?\d*) meses", lit "in $1 month");
    (rx "(?i)ha (\d+[.,]?\d*) horas", lit "$1 hour ago");
    (rx "(?i)ha (\d+[.,]?\d*) meses", lit "$1 month ago");
    (rx "(?i)em (\d+[.,]?\d*) anos", lit "in $1 year");
    (rx "(?i)em (\d+[.,]?\d*) dias", lit "in $1 day");
    (rx "(?i)em (\d+[.,]?\d*) hora", lit "in $1 hour");
    (rx "(?i)em (\d+[.,]?\d*) mins", lit "in $1 minute");
    (rx "(?i)em (\d+[.,]?\d*) segs", lit "in $1 second");
    (rx "(?i)ha (\d+[.,]?\d*) anos", lit "$1 year ago");
    (rx "(?i)ha (\d+[.,]?\d*) dias", lit "$1 day ago");
    (rx "(?i)ha (\d+[.,]?\d*) hora", lit "$1 hour ago");
    (rx "(?i)ha (\d+[.,]?\d*) mins", lit "$1 minute ago");
    (rx "(?i)em (\d+[.,]?\d*) ano", lit "in $1 year");
    (rx "(?i)em (\d+[.,]?\d*) dia", lit "in $1 day");
    (rx "(?i)em (\d+[.,]?\d*) mes", lit "in $1 month");
    (rx "(?i)em (\d+[.,]?\d*) min", lit "in $1 minute");
    (rx "(?i)em (\d+[.,]?\d*) seg", lit "in $1 second");
    (rx "(?i)em (\d+[.,]?\d*) sem", lit "in $1 week");
    (rx "(?i)ha (\d+[.,]?\d*) ano", lit "$1 year ago");
    (rx "(?i)ha (\d+[.,]?\d*) dia", lit "$1 day ago");
    (rx "(?i)ha (\d+[.,]?\d*) mes", lit "$1 month ago");
    (rx "(?i)ha (\d+[.,]?\d*) min", lit "$1 minute ago");
    (rx "(?i)ha (\d+[.,]?\d*) seg", lit "$1 second ago");
    (rx "(?i)ha (\d+[.,]?\d*) sem", lit "$1 week ago");
    (rx "(?i)em (\d+[.,]?\d*) h", lit "in $1 hour");
    (rx "(?i)ha (\d+[.,]?\d*) h", lit "$1 hour ago")];
    ld_rx := Some (rx "(?i)(\A|[^\pL\pM\d]|_)(em \d+[.,]?\d* segundos|ha \d+[.,]?\d* segundos|em \d+[.,]?\d* minutos|em \d+[.,]?\d* segundo|em \d+[.,]?\d* semanas|ha \d+[.,]?\d* minutos|ha \d+[.,]?\d* segundo|ha \d+[.,]?\d* semanas|em \d+[.,]?\d* minuto|em \d+[.,]?\d* semana|ha \d+[.,]?\d* minuto|ha \d+[.,]?\d* semana|em \d+[.,]?\d* horas|em \d+[.,]?\d* meses|ha \d+[.,]?\d* horas|ha \d+[.,]?\d* meses|em \d+[.,]?\d* anos|em \d+[.,]?\d* dias|em \d+[.,]?\d* hora|em \d+[.,]?\d* mins|em \d+[.,]?\d* segs|ha \d+[.,]?\d* anos|ha \d+[.,]?\d* dias|ha \d+[.,]?\d* hora|ha \d+[.,]?\d* mins|em \d+[.,]?\d* ano|em \d+[.,]?\d* dia|em \d+[.,]?\d* mes|em \d+[.,]?\d* min|em \d+[.,]?\d* seg|em \d+[.,]?\d* sem|ha \d+[.,]?\d* ano|ha \d+[.,]?\d* dia|ha \d+[.,]?\d* mes|ha \d+[.,]?\d* min|ha \d+[.,]?\d* seg|ha \d+[.,]?\d* sem|em \d+[.,]?\d* h|ha \d+[.,]?\d* h)(\z|[^\pL\pM\d]|_)");
    ld_rx_exact := Some (rx "(?i)^(em \d+[.,]?\d* segundos|ha \d+[.,]?\d* segundos|em \d+[.,]?\d* minutos|em \d+[.,]?\d* segundo|em \d+[.,]?\d* semanas|ha \d+[.,]?\d* minutos|ha \d+[.,]?\d* segundo|ha \d+[.,]?\d* semanas|em \d+[.,]?\d* minuto|em \d+[.,]?\d* semana|ha \d+[.,]?\d* minuto|ha \d+[.,]?\d* semana|em \d+[.,]?\d* horas|em \d+[.,]?\d* meses|ha \d+[.,]?\d* horas|ha \d+[.,]?\d* meses|em \d+[.,]?\d* anos|em \d+[.,]?\d* dias|em \d+[.,]?\d* hora|em \d+[.,]?\d* mins|em \d+[.,]?\d* segs|ha \d+[.,]?\d* anos|ha \d+[.,]?\d* dias|ha \d+[.,]?\d* hora|ha \d+[.,]?\d* mins|em \d+[.,]?\d* ano|em \d+[.,]?\d* dia|em \d+[.,]?\d* mes|em \d+[.,]?\d* min|em \d+[.,]?\d* seg|em \d+[.,]?\d* sem|ha \d+[.,]?\d* ano|ha \d+[.,]?\d* dia|ha \d+[.,]?\d* mes|ha \d+[.,]?\d* min|ha \d+[.,]?\d* seg|ha \d+[.,]?\d* sem|em \d+[.,]?\d* h|ha \d+[.,]?\d* h)$");
    ld_known := [lit "proxima semana";
    lit "semana passada";
    lit "segunda-feira";
    lit "quarta-feira";
    lit "quinta-feira";
    lit "ano passado";
    lit "esta semana";
    lit "este minuto";
    lit "mes passado";
    lit "proximo ano";
    lit "proximo mes";
    lit "sexta-feira";
    lit "terca-feira";
    lit "anteontem";
    lit "esta hora";
    lit "fevereiro";
    lit "septembro";
    lit "dezembro";
    lit "este ano";
    lit "este mes";
    lit "novembro";
    lit "segundos";
    lit "setembro";
    lit "domingo";
    lit "janeiro";
    lit "minutos";
    lit "outubro";
    lit "segunda";
    lit "segundo";
    lit "semanas";
    lit "agosto";
    lit "amanha";
    lit "minuto";
    lit "quarta";
    lit "quinta";
    lit "sabado";
    lit "semana";
    lit "abril";
    lit "agora";
    lit "atras";
    lit "cerca";
    lit "horas";
    lit "julho";
    lit "junho";
    lit "marco";
    lit "meses";
    lit "ontem";
    lit "sexta";
    lit "terca";
    lit "anos";
    lit "dias";
    lit "hoje";
    lit "hora";
    lit "maio";
    lit "abr";
    lit "ago";
    lit "ano";
    lit "dez";
    lit "dia";
    lit "dom";
    lit "fev";
    lit "gmt";
    lit "jan";
    lit "jul";
    lit "jun";
    lit "mai";
    lit "mar";
    lit "mes";
    lit "min";
    lit "nov";
    lit "out";
    lit "qua";
    lit "qui";
    lit "sab";
    lit "seg";
    lit "sem";
    lit "set";
    lit "sex";
    lit "ter";
    lit "utc";
    lit "am";
    lit "as";
    lit "de";
    lit "em";
    lit "ha";
    lit "pm";
    lit " ";
    lit "'";
    lit "+";
    lit ",";
    lit "-";
    lit ".";
    lit "/";
    lit ":";
    lit ";";
    lit "@";
    lit "[";
    lit "]";
    lit "e";
    lit "h";
    lit "m";
    lit "s";
    lit "z";
    lit "|"] |}.

(** pt.go:187-220 *)
Definition own_pt_AO : locale := Eval vm_compute in
  {| ld_name := lit "pt-AO"; ld_order := lit "DMY"; ld_nospacing := false; ld_splitter := 0;
    ld_charset := runes (lit "");
    ld_abbr := [];
    ld_simpl := [];
    ld_trans := [(lit "da manha", [lit "am"]);
    (lit "da tarde", [lit "pm"]);
    (lit "manha", [lit "am"]);
    (lit "tarde", [lit "pm"])];
    ld_reltype := [];
    ld_relrx := [(rx "(?i)dentro de (\d+[.,]?\d*) segundos", lit "in $1 second");
    (rx "(?i)dentro de (\d+[.,]?\d*) minutos", lit "in $1 minute");
    (rx "(?i)dentro de (\d+[.,]?\d*) segundo", lit "in $1 second");
    (rx "(?i)dentro de (\d+[.,]?\d*) semanas", lit "in $1 week");
    (rx "(?i)dentro de (\d+[.,]?\d*) minuto", lit "in $1 minute");
    (rx "(?i)dentro de (\d+[.,]?\d*) semana", lit "in $1 week");
    (rx "(?i)dentro de (\d+[.,]?\d*) horas", lit "in $1 hour");
    (rx "(?i)dentro de (\d+[.,]?\d*) meses", lit "in $1 month");
    (rx "(?i)dentro de (\d+[.,]?\d*) anos", lit "in $1 year");
    (rx "(?i)dentro de (\d+[.,]?\d*) dias", lit "in $1 day");
    (rx "(?i)dentro de (\d+[.,]?\d*) hora", lit "in $1 hour");
    (rx "(?i)dentro de (\d+[.,]?\d*) ano", lit "in $1 year");
    (rx "(?i)dentro de (\d+[.,]?\d*) dia", lit "in $1 day");
    (rx "(?i)dentro de (\d+[.,]?\d*) mes", lit "in $1 month");
    (rx "(?i)dentro de (\d+[.,]?\d*) min", lit "in $1 minute");
    (rx "(?i)dentro de (\d+[.,]?\d*) sem", lit "in $1 week");
    (rx "(?i)dentro de (\d+[.,]?\d*) h", lit "in $1 hour");
    (rx "(?i)dentro de (\d+[.,]?\d*) s", lit "in $1 second");
    (rx "(?i)ha (\d+[.,]?\d*) s", lit "$1 second ago")];
    ld_rx := Some (rx "(?i)(\A|[^\pL\pM\d]|_)(dentro de \d+[.,]?\d* segundos|dentro de \d+[.,]?\d* minutos|dentro de \d+[.,]?\d* segundo|dentro de \d+[.,]?\d* semanas|dentro de \d+[.,]?\d* minuto|dentro de \d+[.,]?\d* semana|dentro de \d+[.,]?\d* horas|dentro de \d+[.,]?\d* meses|dentro de \d+[.,]?\d* anos|dentro de \d+[.,]?\d* dias|dentro de \d+[.,]?\d* hora|dentro de \d+[.,]?\d* ano|dentro de \d+[.,]?\d* dia|dentro de \d+[.,]?\d* mes|dentro de \d+[.,]?\d* min|dentro de \d+[.,]?\d* sem|dentro de \d+[.,]?\d* h|dentro de \d+[.,]?\d* s|em \d+[.,]?\d* segundos|ha \d+[.,]?\d* segundos|em \d+[.,]?\d* minutos|em \d+[.,]?\d* segundo|em \d+[.,]?\d* semanas|ha \d+[.,]?\d* minutos|ha \d+[.,]?\d* segundo|ha \d+[.,]?\d* semanas|em \d+[.,]?\d* minuto|em \d+[.,]?\d* semana|ha \d+[.,]?\d* minuto|ha \d+[.,]?\d* semana|em \d+[.,]?\d* horas|em \d+[.,]?\d* meses|ha \d+[.,]?\d* horas|ha \d+[.,]?\d* meses|em \d+[.,]?\d* anos|em \d+[.,]?\d* dias|em \d+[.,]?\d* hora|em \d+[.,]?\d* mins|em \d+[.,]?\d* segs|ha \d+[.,]?\d* anos|ha \d+[.,]?\d* dias|ha \d+[.,]?\d* hora|ha \d+[.,]?\d* mins|em \d+[.,]?\d* ano|em \d+[.,]?\d* dia|em \d+[.,]?\d* mes|em \d+[.,]?\d* min|em \d+[.,]?\d* seg|em \d+[.,]?\d* sem|ha \d+[.,]?\d* ano|ha \d+[.,]?\d* dia|ha \d+[.,]?\d* mes|ha \d+[.,]?\d* min|ha \d+[.,]?\d* seg|ha \d+[.,]?\d* sem|em \d+[.,]?\d* h|ha \d+[.,]?\d* h|ha \d+[.,]?\d* s)(\z|[^\pL\pM\d]|_)");
    ld_rx_exact := Some (rx "(?i)^(dentro de \d+[.,]?\d* segundos|dentro de \d+[.,]?\d* minutos|dentro de \d+[.,]?\d* segundo|dentro de \d+[.,]?\d* semanas|dentro de \d+[.,]?\d* minuto|dentro de \d+[.,]?\d* semana|dentro de \d+[.,]?\d* horas|dentro de \d+[.,]?\d* meses|dentro de \d+[.,]?\d* anos|dentro de \d+[.,]?\d* dias|dentro de \d+[.,]?\d* hora|dentro de \d+[.,]?\d* ano|dentro de \d+[.,]?\d* dia|dentro de \d+[.,]?\d* mes|dentro de \d+[.,]?\d* min|dentro de \d+[.,]?\d* sem|dentro de \d+[.,]?\d* h|dentro de \d+[.,]?\d* s|em \d+[.,]?\d* segundos|ha \d+[.,]?\d* segundos|em \d+[.,]?\d* minutos|em \d+[.,]?\d* segundo|em \d+[.,]?\d* semanas|ha \d+[.,]?\d* minutos|ha \d+[.,]?\d* segundo|ha \d+[.,]?\d* semanas|em \d+[.,]?\d* minuto|em \d+[.,]?\d* semana|ha \d+[.,]?\d* minuto|ha \d+[.,]?\d* semana|em \d+[.,]?\d* horas|em \d+[.,]?\d* meses|ha \d+[.,]?\d* horas|ha \d+[.,]?\d* meses|em \d+[.,]?\d* anos|em \d+[.,]?\d* dias|em \d+[.,]?\d* hora|em \d+[.,]?\d* mins|em \d+[.,]?\d* segs|ha \d+[.,]?\d* anos|ha \d+[.,]?\d* dias|ha \d+[.,]?\d* hora|ha \d+[.,]?\d* mins|em \d+[.,]?\d* ano|em \d+[.,]?\d* dia|em \d+[.,]?\d* mes|em \d+[.,]?\d* min|em \d+[.,]?\d* seg|em \d+[.,]?\d* sem|ha \d+[.,]?\d* ano|ha \d+[.,]?\d* dia|ha \d+[.,]?\d* mes|ha \d+[.,]?\d* min|ha \d+[.,]?\d* seg|ha \d+[.,]?\d* sem|em \d+[.,]?\d* h|ha \d+[.,]?\d* h|ha \d+[.,]?\d* s)$");
    ld_known := [lit "proxima semana";
    lit "semana passada";
    lit "segunda-feira";
    lit "quarta-feira";
    lit "quinta-feira";
    lit "ano passado";
    lit "esta semana";
    lit "este minuto";
    lit "mes passado";
    lit "proximo ano";
    lit "proximo mes";
    lit "sexta-feira";
    lit "terca-feira";
    lit "anteontem";
    lit "esta hora";
    lit "fevereiro";
    lit "septembro";
    lit "da manha";
    lit "da tarde";
    lit "dezembro";
    lit "este ano";
    lit "este mes";
    lit "novembro";
    lit "segundos";
    lit "setembro";
    lit "domingo";
    lit "janeiro";
    lit "minutos";
    lit "outubro";
    lit "segunda";
    lit "segundo";
    lit "semanas";
    lit "agosto";
    lit "amanha";
    lit "minuto";
    lit "quarta";
    lit "quinta";
    lit "sabado";
    lit "semana";
    lit "abril";
    lit "agora";
    lit "atras";
    lit "cerca";
    lit "horas";
    lit "julho";
    lit "junho";
    lit "manha";
    lit "marco";
    lit "meses";
    lit "ontem";
    lit "sexta";
    lit "tarde";
    lit "terca";
    lit "anos";
    lit "dias";
    lit "hoje";
    lit "hora";
    lit "maio";
    lit "abr";
    lit "ago";
    lit "ano";
    lit "dez";
    lit "dia";
    lit "dom";
    lit "fev";
    lit "gmt";
    lit "jan";
    lit "jul";
    lit "jun";
    lit "mai";
    lit "mar";
    lit "mes";
    lit "min";
    lit "nov";
    lit "out";
    lit "qua";
    lit "qui";
    lit "sab";
    lit "seg";
    lit "sem";
    lit "set";
    lit "sex";
    lit "ter";
    lit "utc";
    lit "am";
    lit "as";
    lit "de";
    lit "em";
    lit "ha";
    lit "pm";
    lit " ";
    lit "'";
    lit "+";
    lit ",";
    lit "-";
    lit ".";
    lit "/";
    lit ":";
    lit ";";
    lit "@";
    lit "[";
    lit "]";
    lit "e";
    lit "h";
    lit "m";
    lit "s";
    lit "z";
    lit "|"] |}.
Definition loc_pt_AO : locale := merge loc_pt own_pt_AO.

(** pt.go:222-255 *)
Definition own_pt_CH : locale := Eval vm_compute in
  {| ld_name := lit "pt-CH"; ld_order := lit "DMY"; ld_nospacing := false; ld_splitter := 0;
    ld_charset := runes (lit "");
    ld_abbr := [];
    ld_simpl := [];
    ld_trans := [(lit "da manha", [lit "am"]);
    (lit "da tarde", [lit "pm"]);
    (lit "manha", [lit "am"]);
    (lit "tarde", [lit "pm"])];
    ld_reltype := [];
    ld_relrx := [(rx "(?i)dentro de (\d+[.,]?\d*) segundos", lit "in $1 second");
    (rx "(?i)dentro de (\d+[.,]?\d*) minutos", lit "in $1 minute");
    (rx "(?i)dentro de (\d+[.,]?\d*) segundo", lit "in $1 second");
    (rx "(?i)dentro de (\d+[.,]?\d*) semanas", lit "in $1 week");
    (rx "(?i)dentro de (\d+[.,]?\d*) minuto", lit "in $1 minute");
    (rx "(?i)dentro de (\d+[.,]?\d*) semana", lit "in $1 week");
    (rx "(?i)dentro de (\d+[.,]?\d*) horas", lit "in $1 hour");
    (rx "(?i)dentro de (\d+[.,]?\d*) meses", lit "in $1 month");
    (rx "(?i)dentro de (\d+[.,]?\d*) anos", lit "in $1 year");
    (rx "(?i)dentro de (\d+[.,]?\d*) dias", lit "in $1 day");
    (rx "(?i)dentro de (\d+[.,]?\d*) hora", lit "in $1 hour");
    (rx "(?i)dentro de (\d+[.,]?\d*) ano", lit "in $1 year");
    (rx "(?i)dentro de (\d+[.,]?\d*) dia", lit "in $1 day");
    (rx "(?i)dentro de (\d+[.,]?\d*) mes", lit "in $1 month");
    (rx "(?i)dentro de (\d+[.,]?\d*) min", lit "in $1 minute");
    (rx "(?i)dentro de (\d+[.,]?\d*) sem", lit "in $1 week");
    (rx "(?i)dentro de (\d+[.,]?\d*) h", lit "in $1 hour");
    (rx "(?i)dentro de (\d+[.,]?\d*) s", lit "in $1 second");
    (rx "(?i)ha (\d+[.,]?\d*) s", lit "$1 second ago")];
    ld_rx := Some (rx "(?i)(\A|[^\pL\pM\d]|_)(dentro de \d+[.,]?\d* segundos|dentro de \d+[.,]?\d* minutos|dentro de \d+[.,]?\d* segundo|dentro de \d+[.,]?\d* semanas|dentro de \d+[.,]?\d* minuto|dentro de \d+[.,]?\d* semana|dentro de \d+[.,]?\d* horas|dentro de \d+[.,]?\d* meses|dentro de \d+[.,]?\d* anos|dentro de \d+[.,]?\d* dias|dentro de \d+[.,]?\d* hora|dentro de \d+[.,]?\d* ano|dentro de \d+[.,]?\d* dia|dentro de \d+[.,]?\d* mes|dentro de \d+[.,]?\d* min|dentro de \d+[.,]?\d* sem|dentro de \d+[.,]?\d* h|dentro de \d+[.,]?\d* s|em \d+[.,]?\d* segundos|ha \d+[.,]?\d* segundos|em \d+[.,]?\d* minutos|em \d+[.,]?\d* segundo|em \d+[.,]?\d* semanas|ha \d+[.,]?\d* minutos|ha \d+[.,]?\d* segundo|ha \d+[.,]?\d* semanas|em \d+[.,]?\d* minuto|em \d+[.,]?\d* semana|ha \d+[.,]?\d* minuto|ha \d+[.,]?\d* semana|em \d+[.,]?\d* horas|em \d+[.,]?\d* meses|ha \d+[.,]?\d* horas|ha \d+[.,]?\d* meses|em \d+[.,]?\d* anos|em \d+[.,]?\d* dias|em \d+[.,]?\d* hora|em \d+[.,]?\d* mins|em \d+[.,]?\d* segs|ha \d+[.,]?\d* anos|ha \d+[.,]?\d* dias|ha \d+[.,]?\d* hora|ha \d+[.,]?\d* mins|em \d+[.,]?\d* ano|em \d+[.,]?\d* dia|em \d+[.,]?\d* mes|em \d+[.,]?\d* min|em \d+[.,]?\d* seg|em \d+[.,]?\d* sem|ha \d+[.,]?\d* ano|ha \d+[.,]?\d* dia|ha \d+[.,]?\d* mes|ha \d+[.,]?\d* min|ha \d+[.,]?\d* seg|ha \d+[.,]?\d* sem|em \d+[.,]?\d* h|ha \d+[.,]?\d* h|ha \d+[.,]?\d* s)(\z|[^\pL\pM\d]|_)");
    ld_rx_exact := Some (rx "(?i)^(dentro de \d+[.,]?\d* segundos|dentro de \d+[.,]?\d* minutos|dentro de \d+[.,]?\d* segundo|dentro de \d+[.,]?\d* semanas|dentro de \d+[.,]?\d* minuto|dentro de \d+[.,]?\d* semana|dentro de \d+[.,]?\d* horas|dentro de \d+[.,]?\d* meses|dentro de \d+[.,]?\d* anos|dentro de \d+[.,]?\d* dias|dentro de \d+[.,]?\d* hora|dentro de \d+[.,]?\d* ano|dentro de \d+[.,]?\d* dia|dentro de \d+[.,]?\d* mes|dentro de \d+[.,]?\d* min|dentro de \d+[.,]?\d* sem|dentro de \d+[.,]?\d* h|dentro de \d+[.,]?\d* s|em \d+[.,]?\d* segundos|ha \d+[.,]?\d* segundos|em \d+[.,]?\d* minutos|em \d+[.,]?\d* segundo|em \d+[.,]?\d* semanas|ha \d+[.,]?\d* minutos|ha \d+[.,]?\d* segundo|ha \d+[.,]?\d* semanas|em \d+[.,]?\d* minuto|em \d+[.,]?\d* semana|ha \d+[.,]?\d* minuto|ha \d+[.,]?\d* semana|em \d+[.,]?\d* horas|em \d+[.,]?\d* meses|ha \d+[.,]?\d* horas|ha \d+[.,]?\d* meses|em \d+[.,]?\d* anos|em \d+[.,]?\d* dias|em \d+[.,]?\d* hora|em \d+[.,]?\d* mins|em \d+[.,]?\d* segs|ha \d+[.,]?\d* anos|ha \d+[.,]?\d* dias|ha \d+[.,]?\d* hora|ha \d+[.,]?\d* mins|em \d+[.,]?\d* ano|em \d+[.,]?\d* dia|em \d+[.,]?\d* mes|em \d+[.,]?\d* min|em \d+[.,]?\d* seg|em \d+[.,]?\d* sem|ha \d+[.,]?\d* ano|ha \d+[.,]?\d* dia|ha \d+[.,]?\d* mes|ha \d+[.,]?\d* min|ha \d+[.,]?\d* seg|ha \d+[.,]?\d* sem|em \d+[.,]?\d* h|ha \d+[.,]?\d* h|ha \d+[.,]?\d* s)$");
    ld_known := [lit "proxima semana";
    lit "semana passada";
    lit "segunda-feira";
    lit "quarta-feira";
    lit "quinta-feira";
    lit "ano passado";
    lit "esta semana";
    lit "este minuto";
    lit "mes passado";
    lit "proximo ano";
    lit "proximo mes";
    lit "sexta-feira";
    lit "terca-feira";
    lit "anteontem";
    lit "esta hora";
    lit "fevereiro";
    lit "septembro";
    lit "da manha";
    lit "da tarde";
    lit "dezembro";
    lit "este ano";
    lit "este mes";
    lit "novembro";
    lit "segundos";
    lit "setembro";
    lit "domingo";
    lit "janeiro";
    lit "minutos";
    lit "outubro";
    lit "segunda";
    lit "segundo";
    lit "semanas";
    lit "agosto";
    lit "amanha";
    lit "minuto";
    lit "quarta";
    lit "quinta";
    lit "sabado";
    lit "semana";
    lit "abril";
    lit "agora";
    lit "atras";
    lit "cerca";
    lit "horas";
    lit "julho";
    lit "junho";
    lit "manha";
    lit "marco";
    lit "meses";
    lit "ontem";
    lit "sexta";
    lit "tarde";
    lit "terca";
    lit "anos";
    lit "dias";
    lit "hoje";
    lit "hora";
    lit "maio";
    lit "abr";
    lit "ago";
    lit "ano";
    lit "dez";
    lit "dia";
    lit "dom";
    lit "fev";
    lit "gmt";
    lit "jan";
    lit "jul";
    lit "jun";
    lit "mai";
    lit "mar";
    lit "mes";
    lit "min";
    lit "nov";
    lit "out";
    lit "qua";
    lit "qui";
    lit "sab";
    lit "seg";
    lit "sem";
    lit "set";
    lit "sex";
    lit "ter";
    lit "utc";
    lit "am";
    lit "as";
    lit "de";
    lit "em";
    lit "ha";
    lit "pm";
    lit " ";
    lit "'";
    lit "+";
    lit ",";
    lit "-";
    lit ".";
    lit "/";
    lit ":";
    lit ";";
    lit "@";
    lit "[";
    lit "]";
    lit "e";
    lit "h";
    lit "m";
    lit "s";
    lit "z";
    lit "|"] |}.
Definition loc_pt_CH : locale := merge loc_pt own_pt_CH.

(** pt.go:257-290 *)
Definition own_pt_CV : locale := Eval vm_compute in
  {| ld_name := lit "pt-CV"; ld_order := lit "DMY"; ld_nospacing := false; ld_splitter := 0;
    ld_charset := runes (lit "");
    ld_abbr := [];
    ld_simpl := [];
    ld_trans := [(lit "da manha", [lit "am"]);
    (lit "da tarde", [lit "pm"]);
    (lit "manha", [lit "am"]);
    (lit "tarde", [lit "pm"])];
    ld_reltype := [];
    ld_relrx := [(rx "(?i)dentro de (\d+[.,]?\d*) segundos", lit "in $1 second");
    (rx "(?i)dentro de (\d+[.,]?\d*) minutos", lit "in $1 minute");
    (rx "(?i)dentro de (\d+[.,]?\d*) segundo", lit "in $1 second");
    (rx "(?i)dentro de (\d+[.,]?\d*) semanas", lit "in $1 week");
    (rx "(?i)dentro de (\d+[.,]?\d*) minuto", lit "in $1 minute");
    (rx "(?i)dentro de (\d+[.,]?\d*) semana", lit "in $1 week");
    (rx "(?i)dentro de (\d+[.,]?\d*) horas", lit "in $1 hour");
    (rx "(?i)dentro de (\d+[.,]?\d*) meses", lit "in $1 month");
    (rx "(?i)dentro de (\d+[.,]?\d*) anos", lit "in $1 year");
    (rx "(?i)dentro de (\d+[.,]?\d*) dias", lit "in $1 day");
    (rx "(?i)dentro de (\d+[.,]?\d*) hora", lit "in $1 hour");
    (rx "(?i)dentro de (\d+[.,]?\d*) ano", lit "in $1 year");
    (rx "(?i)dentro de (\d+[.,]?\d*) dia", lit "in $1 day");
    (rx "(?i)dentro de (\d+[.,]?\d*) mes", lit "in $1 month");
    (rx "(?i)dentro de (\d+[.,]?\d*) min", lit "in $1 minute");
    (rx "(?i)dentro de (\d+[.,]?\d*) sem", lit "in $1 week");
    (rx "(?i)dentro de (\d+[.,]?\d*) h", lit "in $1 hour");
    (rx "(?i)dentro de (\d+[.,]?\d*) s", lit "in $1 second");
    (rx "(?i)ha (\d+[.,]?\d*) s", lit "$1 second ago")];
    ld_rx := Some (rx "(?i)(\A|[^\pL\pM\d]|_)(dentro de \d+[.,]?\d* segundos|dentro de \d+[.,]?\d* minutos|dentro de \d+[.,]?\d* segundo|dentro de \d+[.,]?\d* semanas|dentro de \d+[.,]?\d* minuto|dentro de \d+[.,]?\d* semana|dentro de \d+[.,]?\d* horas|dentro de \d+[.,]?\d* meses|dentro de \d+[.,]?\d* anos|dentro de \d+[.,]?\d* dias|dentro de \d+[.,]?\d* hora|dentro de \d+[.,]?\d* ano|dentro de \d+[.,]?\d* dia|dentro de \d+[.,]?\d* mes|dentro de \d+[.,]?\d* min|dentro de \d+[.,]?\d* sem|dentro de \d+[.,]?\d* h|dentro de \d+[.,]?\d* s|em \d+[.,]?\d* segundos|ha \d+[.,]?\d* segundos|em \d+[.,]?\d* minutos|em \d+[.,]?\d* segundo|em \d+[.,]?\d* semanas|ha \d+[.,]?\d* minutos|ha \d+[.,]?\d* segundo|ha \d+[.,]?\d* semanas|em \d+[.,]?\d* minuto|em \d+[.,]?\d* semana|ha \d+[.,]?\d* minuto|ha \d+[.,]?\d* semana|em \d+[.,]?\d* horas|em \d+[.,]?\d* meses|ha \d+[.,]?\d* horas|ha \d+[.,]?\d* meses|em \d+[.,]?\d* anos|em \d+[.,]?\d* dias|em \d+[.,]?\d* hora|em \d+[.,]?\d* mins|em \d+[.,]?\d* segs|ha \d+[.,]?\d* anos|ha \d+[.,]?\d* dias|ha \d+[.,]?\d* hora|ha \d+[.,]?\d* mins|em \d+[.,]?\d* ano|em \d+[.,]?\d* dia|em \d+[.,]?\d* mes|em \d+[.,]?\d* min|em \d+[.,]?\d* seg|em \d+[.,]?\d* sem|ha \d+[.,]?\d* ano|ha \d+[.,]?\d* dia|ha \d+[.,]?\d* mes|ha \d+[.,]?\d* min|ha \d+[.,]?\d* seg|ha \d+[.,]?\d* sem|em \d+[.,]?\d* h|ha \d+[.,]?\d* h|ha \d+[.,]?\d* s)(\z|[^\pL\pM\d]|_)");
    ld_rx_exact := Some (rx "(?i)^(dentro de \d+[.,]?\d* segundos|dentro de \d+[.,]?\d* minutos|dentro de \d+[.,]?\d* segundo|dentro de \d+[.,]?\d* semanas|dentro de \d+[.,]?\d* minuto|dentro de \d+[.,]?\d* semana|dentro de \d+[.,]?\d* horas|dentro de \d+[.,]?\d* meses|dentro de \d+[.,]?\d* anos|dentro de \d+[.,]?\d* dias|dentro de \d+[.,]?\d* hora|dentro de \d+[.,]?\d* ano|dentro de \d+[.,]?\d* dia|dentro de \d+[.,]?\d* mes|dentro de \d+[.,]?\d* min|dentro de \d+[.,]?\d* sem|dentro de \d+[.,]?\d* h|dentro de \d+[.,]?\d* s|em \d+[.,]?\d* segundos|ha \d+[.,]?\d* segundos|em \d+[.,]?\d* minutos|em \d+[.,]?\d* segundo|em \d+[.,]?\d* semanas|ha \d+[.,]?\d* minutos|ha \d+[.,]?\d* segundo|ha \d+[.,]?\d* semanas|em \d+[.,]?\d* minuto|em \d+[.,]?\d* semana|ha \d+[.,]?\d* minuto|ha \d+[.,]?\d* semana|em \d+[.,]?\d* horas|em \d+[.,]?\d* meses|ha \d+[.,]?\d* horas|ha \d+[.,]?\d* meses|em \d+[.,]?\d* anos|em \d+[.,]?\d* dias|em \d+[.,]?\d* hora|em \d+[.,]?\d* mins|em \d+[.,]?\d* segs|ha \d+[.,]?\d* anos|ha \d+[.,]?\d* dias|ha \d+[.,]?\d* hora|ha \d+[.,]?\d* mins|em \d+[.,]?\d* ano|em \d+[.,]?\d* dia|em \d+[.,]?\d* mes|em \d+[.,]?\d* min|em \d+[.,]?\d* seg|em \d+[.,]?\d* sem|ha \d+[.,]?\d* ano|ha \d+[.,]?\d* dia|ha \d+[.,]?\d* mes|ha \d+[.,]?\d* min|ha \d+[.,]?\d* seg|ha \d+[.,]?\d* sem|em \d+[.,]?\d* h|ha \d+[.,]?\d* h|ha \d+[.,]?\d* s)$");
    ld_known := [lit "proxima semana";
    lit "semana passada";
    lit "segunda-feira";
    lit "quarta-feira";
    lit "quinta-feira";
    lit "ano passado";
    lit "esta semana";
    lit "este minuto";
    lit "mes passado";
    lit "proximo ano";
    lit "proximo mes";
    lit "sexta-feira";
    lit "terca-feira";
    lit "anteontem";
    lit "esta hora";
    lit "fevereiro";
    lit "septembro";
    lit "da manha";
    lit "da tarde";
    lit "dezembro";
    lit "este ano";
    lit "este mes";
    lit "novembro";
    lit "segundos";
    lit "setembro";
    lit "domingo";
    lit "janeiro";
    lit "minutos";
    lit "outubro";
    lit "segunda";
    lit "segundo";
    lit "semanas";
    lit "agosto";
    lit "amanha";
    lit "minuto";
    lit "quarta";
    lit "quinta";
    lit "sabado";
    lit "semana";
    lit "abril";
    lit "agora";
    lit "atras";
    lit "cerca";
    lit "horas";
    lit "julho";
    lit "junho";
    lit "manha";
    lit "marco";
    lit "meses";
    lit "ontem";
    lit "sexta";
    lit "tarde";
    lit "terca";
    lit "anos";
    lit "dias";
    lit "hoje";
    lit "hora";
    lit "maio";
    lit "abr";
    lit "ago";
    lit "ano";
    lit "dez";
    lit "dia";
    lit "dom";
    lit "fev";
    lit "gmt";
    lit "jan";
    lit "jul";
    lit "jun";
    lit "mai";
    lit "mar";
    lit "mes";
    lit "min";
    lit "nov";
    lit "out";
    lit "qua";
    lit "qui";
    lit "sab";
    lit "seg";
    lit "sem";
    lit "set";
    lit "sex";
    lit "ter";
    lit "utc";
    lit "am";
    lit "as";
    lit "de";
    lit "em";
    lit "ha";
    lit "pm";
    lit " ";
    lit "'";
    lit "+";
    lit ",";
    lit "-";
    lit ".";
    lit "/";
    lit ":";
    lit ";";
    lit "@";
    lit "[";
    lit "]";
    lit "e";
    lit "h";
    lit "m";
    lit "s";
    lit "z";
    lit "|"] |}.
Definition loc_pt_CV : locale := merge loc_pt own_pt_CV.

(** pt.go:292-325 *)
Definition own_pt_GQ : locale := Eval vm_compute in
  {| ld_name := lit "pt-GQ"; ld_order := lit "DMY"; ld_nospacing := false; ld_splitter := 0;
    ld_charset := runes (lit "");
    ld_abbr := [];
    ld_simpl := [];
    ld_trans := [(lit "da manha", [lit "am"]);
    (lit "da tarde", [lit "pm"]);
    (lit "manha", [lit "am"]);
    (lit "tarde", [lit "pm"])];
    ld_reltype := [];
    ld_relrx := [(rx "(?i)dentro de (\d+[.,]?\d*) segundos", lit "in $1 second");
    (rx "(?i)dentro de (\d+[.,]?\d*) minutos", lit "in $1 minute");
    (rx "(?i)dentro de (\d+[.,]?\d*) segundo", lit "in $1 second");
    (rx "(?i)dentro de (\d+[.,]?\d*) semanas", lit "in $1 week");
    (rx "(?i)dentro de (\d+[.,]?\d*) minuto", lit "in $1 minute");
    (rx "(?i)dentro de (\d+[.,]?\d*) semana", lit "in $1 week");
    (rx "(?i)dentro de (\d+[.,]?\d*) horas", lit "in $1 hour");
    (rx "(?i)dentro de (\d+[.,]?\d*) meses", lit "in $1 month");
    (rx "(?i)dentro de (\d+[.,]?\d*) anos", lit "in $1 year");
    (rx "(?i)dentro de (\d+[.,]?\d*) dias", lit "in $1 day");
    (rx "(?i)dentro de (\d+[.,]?\d*) hora", lit "in $1 hour");
    (rx "(?i)dentro de (\d+[.,]?\d*) ano", lit "in $1 year");
    (rx "(?i)dentro de (\d+[.,]?\d*) dia", lit "in $1 day");
    (rx "(?i)dentro de (\d+[.,]?\d*) mes", lit "in $1 month");
    (rx "(?i)dentro de (\d+[.,]?\d*) min", lit "in $1 minute");
    (rx "(?i)dentro de (\d+[.,]?\d*) sem", lit "in $1 week");
    (rx "(?i)dentro de (\d+[.,]?\d*) h", lit "in $1 hour");
    (rx "(?i)dentro de (\d+[.,]?\d*) s", lit "in $1 second");
    (rx "(?i)ha (\d+[.,]?\d*) s", lit "$1 second ago")];
    ld_rx := Some (rx "(?i)(\A|[^\pL\pM\d]|_)(dentro de \d+[.,]?\d* segundos|dentro de \d+[.,]?\d* minutos|dentro de \d+[.,]?\d* segundo|dentro de \d+[.,]?\d* semanas|dentro de \d+[.,]?\d* minuto|dentro de \d+[.,]?\d* semana|dentro de \d+[.,]?\d* horas|dentro de \d+[.,]?\d* meses|dentro de \d+[.,]?\d* anos|dentro de \d+[.,]?\d* dias|dentro de \d+[.,]?\d* hora|dentro de \d+[.,]?\d* ano|dentro de \d+[.,]?\d* dia|dentro de \d+[.,]?\d* mes|dentro de \d+[.,]?\d* min|dentro de \d+[.,]?\d* sem|dentro de \d+[.,]?\d* h|dentro de \d+[.,]?\d* s|em \d+[.,]?\d* segundos|ha \d+[.,]?\d* segundos|em \d+[.,]?\d* minutos|em \d+[.,]?\d* segundo|em \d+[.,]?\d* semanas|ha \d+[.,]?\d* minutos|ha \d+[.,]?\d* segundo|ha \d+[.,]?\d* semanas|em \d+[.,]?\d* minuto|em \d+[.,]?\d* semana|ha \d+[.,]?\d* minuto|ha \d+[.,]?\d* semana|em \d+[.,]?\d* horas|em \d+[.,]?\d* meses|ha \d+[.,]?\d* horas|ha \d+[.,]?\d* meses|em \d+[.,]?\d* anos|em \d+[.,]?\d* dias|em \d+[.,]?\d* hora|em \d+[.,]?\d* mins|em \d+[.,]?\d* segs|ha \d+[.,]?\d* anos|ha \d+[.,]?\d* dias|ha \d+[.,]?\d* hora|ha \d+[.,]?\d* mins|em \d+[.,]?\d* ano|em \d+[.,]?\d* dia|em \d+[.,]?\d* mes|em \d+[.,]?\d* min|em \d+[.,]?\d* seg|em \d+[.,]?\d* sem|ha \d+[.,]?\d* ano|ha \d+[.,]?\d* dia|ha \d+[.,]?\d* mes|ha \d+[.,]?\d* min|ha \d+[.,]?\d* seg|ha \d+[.,]?\d* sem|em \d+[.,]?\d* h|ha \d+[.,]?\d* h|ha \d+[.,]?\d* s)(\z|[^\pL\pM\d]|_)");
    ld_rx_exact := Some (rx "(?i)^(dentro de \d+[.,]?\d* segundos|dentro de \d+[.,]?\d* minutos|dentro de \d+[.,]?\d* segundo|dentro de \d+[.,]?\d* semanas|dentro de \d+[.,]?\d* minuto|dentro de \d+[.,]?\d* semana|dentro de \d+[.,]?\d* horas|dentro de \d+[.,]?\d* meses|dentro de \d+[.,]?\d* anos|dentro de \d+[.,]?\d* dias|dentro de \d+[.,]?\d* hora|dentro de \d+[.,]?\d* ano|dentro de \d+[.,]?\d* dia|dentro de \d+[.,]?\d* mes|dentro de \d+[.,]?\d* min|dentro de \d+[.,]?\d* sem|dentro de \d+[.,]?\d* h|dentro de \d+[.,]?\d* s|em \d+[.,]?\d* segundos|ha \d+[.,]?\d* segundos|em \d+[.,]?\d* minutos|em \d+[.,]?\d* segundo|em \d+[.,]?\d* semanas|ha \d+[.,]?\d* minutos|ha \d+[.,]?\d* segundo|ha \d+[.,]?\d* semanas|em \d+[.,]?\d* minuto|em \d+[.,]?\d* semana|ha \d+[.,]?\d* minuto|ha \d+[.,]?\d* semana|em \d+[.,]?\d* horas|em \d+[.,]?\d* meses|ha \d+[.,]?\d* horas|ha \d+[.,]?\d* meses|em \d+[.,]?\d* anos|em \d+[.,]?\d* dias|em \d+[.,]?\d* hora|em \d+[.,]?\d* mins|em \d+[.,]?\d* segs|ha \d+[.,]?\d* anos|ha \d+[.,]?\d* dias|ha \d+[.,]?\d* hora|ha \d+[.,]?\d* mins|em \d+[.,]?\d* ano|em \d+[.,]?\d* dia|em \d+[.,]?\d* mes|em \d+[.,]?\d* min|em \d+[.,]?\d* seg|em \d+[.,]?\d* sem|ha \d+[.,]?\d* ano|ha \d+[.,]?\d* dia|ha \d+[.,]?\d* mes|ha \d+[.,]?\d* min|ha \d+[.,]?\d* seg|ha \d+[.,]?\d* sem|em \d+[.,]?\d* h|ha \d+[.,]?\d* h|ha \d+[.,]?\d* s)$");
    ld_known := [lit "proxima semana";
    lit "semana passada";
    lit "segunda-feira";
    lit "quarta-feira";
    lit "quinta-feira";
    lit "ano passado";
    lit "esta semana";
    lit "este minuto";
    lit "mes passado";
    lit "proximo ano";
    lit "proximo mes";
    lit "sexta-feira";
    lit "terca-feira";
    lit "anteontem";
    lit "esta hora";
    lit "fevereiro";
    lit "septembro";
    lit "da manha";
    lit "da tarde";
    lit "dezembro";
    lit "este ano";
    lit "este mes";
    lit "novembro";
    lit "segundos";
    lit "setembro";
    lit "domingo";
    lit "janeiro";
    lit "minutos";
    lit "outubro";
    lit "segunda";
    lit "segundo";
    lit "semanas";
    lit "agosto";
    lit "amanha";
    lit "minuto";
    lit "quarta";
    lit "quinta";
    lit "sabado";
    lit "semana";
    lit "abril";
    lit "agora";
    lit "atras";
    lit "cerca";
    lit "horas";
    lit "julho";
    lit "junho";
    lit "manha";
    lit "marco";
    lit "meses";
    lit "ontem";
    lit "sexta";
    lit "tarde";
    lit "terca";
    lit "anos";
    lit "dias";
    lit "hoje";
    lit "hora";
    lit "maio";
    lit "abr";
    lit "ago";
    lit "ano";
    lit "dez";
    lit "dia";
    lit "dom";
    lit "fev";
    lit "gmt";
    lit "jan";
    lit "jul";
    lit "jun";
    lit "mai";
    lit "mar";
    lit "mes";
    lit "min";
    lit "nov";
    lit "out";
    lit "qua";
    lit "qui";
    lit "sab";
    lit "seg";
    lit "sem";
    lit "set";
    lit "sex";
    lit "ter";
    lit "utc";
    lit "am";
    lit "as";
    lit "de";
    lit "em";
    lit "ha";
    lit "pm";
    lit " ";
    lit "'";
    lit "+";
    lit ",";
    lit "-";
    lit ".";
    lit "/";
    lit ":";
    lit ";";
    lit "@";
    lit "[";
    lit "]";
    lit "e";
    lit "h";
    lit "m";
    lit "s";
    lit "z";
    lit "|"] |}.
Definition loc_pt_GQ : locale := merge loc_pt own_pt_GQ.

(** pt.go:327-360 *)
Definition own_pt_GW : locale := Eval vm_compute in
  {| ld_name := lit "pt-GW"; ld_order := lit "DMY"; ld_nospacing := false; ld_splitter := 0;
    ld_charset := runes (lit "");
    ld_abbr := [];
    ld_simpl := [];
    ld_trans := [(lit "da manha", [lit "am"]);
    (lit "da tarde", [lit "pm"]);
    (lit "manha", [lit "am"]);
    (lit "tarde", [lit "pm"])];
    ld_reltype := [];
    ld_relrx := [(rx "(?i)dentro de (\d+[.,]?\d*) segundos", lit "in $1 second");
    (rx "(?i)dentro de (\d+[.,]?\d*) minutos", lit "in $1 minute");
    (rx "(?i)dentro de (\d+[.,]?\d*) segundo", lit "in $1 second");
    (rx "(?i)dentro de (\d+[.,]?\d*) semanas", lit "in $1 week");
    (rx "(?i)dentro de (\d+[.,]?\d*) minuto", lit "in $1 minute");
    (rx "(?i)dentro de (\d+[.,]?\d*) semana", lit "in $1 week");
    (rx "(?i)dentro de (\d+[.,]?\d*) horas", lit "in $1 hour");
    (rx "(?i)dentro de (\d+[.,]?\d*) meses", lit "in $1 month");
    (rx "(?i)dentro de (\d+[.,]?\d*) anos", lit "in $1 year");
    (rx "(?i)dentro de (\d+[.,]?\d*) dias", lit "in $1 day");
    (rx "(?i)dentro de (\d+[.,]?\d*) hora", lit "in $1 hour");
    (rx "(?i)dentro de (\d+[.,]?\d*) ano", lit "in $1 year");
    (rx "(?i)dentro de (\d+[.,]?\d*) dia", lit "in $1 day");
    (rx "(?i)dentro de (\d+[.,]?\d*) mes", lit "in $1 month");
    (rx "(?i)dentro de (\d+[.,]?\d*) min", lit "in $1 minute");
    (rx "(?i)dentro de (\d+[.,]?\d*) sem", lit "in $1 week");
    (rx "(?i)dentro de (\d+[.,]?\d*) h", lit "in $1 hour");
    (rx "(?i)dentro de (\d+[.,]?\d*) s", lit "in $1 second");
    (rx "(?i)ha (\d+[.,]?\d*) s", lit "$1 second ago")];
    ld_rx := Some (rx "(?i)(\A|[^\pL\pM\d]|_)(dentro de \d+[.,]?\d* segundos|dentro de \d+[.,]?\d* minutos|dentro de \d+[.,]?\d* segundo|dentro de \d+[.,]?\d* semanas|dentro de \d+[.,]?\d* minuto|dentro de \d+[.,]?\d* semana|dentro de \d+[.,]?\d* horas|dentro de \d+[.,]?\d* meses|dentro de \d+[.,]?\d* anos|dentro de \d+[.,]?\d* dias|dentro de \d+[.,]?\d* hora|dentro de \d+[.,]?\d* ano|dentro de \d+[.,]?\d* dia|dentro de \d+[.,]?\d* mes|dentro de \d+[.,]?\d* min|dentro de \d+[.,]?\d* sem|dentro de \d+[.,]?\d* h|dentro de \d+[.,]?\d* s|em \d+[.,]?\d* segundos|ha \d+[.,]?\d* segundos|em \d+[.,]?\d* minutos|em \d+[.,]?\d* segundo|em \d+[.,]?\d* semanas|ha \d+[.,]?\d* minutos|ha \d+[.,]?\d* segundo|ha \d+[.,]?\d* semanas|em \d+[.,]?\d* minuto|em \d+[.,]?\d* semana|ha \d+[.,]?\d* minuto|ha \d+[.,]?\d* semana|em \d+[.,]?\d* horas|em \d+[.,]?\d* meses|ha \d+[.,]?\d* horas|ha \d+[.,]?\d* meses|em \d+[.,]?\d* anos|em \d+[.,]?\d* dias|em \d+[.,]?\d* hora|em \d+[.,]?\d* mins|em \d+[.,]?\d* segs|ha \d+[.,]?\d* anos|ha \d+[.,]?\d* dias|ha \d+[.,]?\d* hora|ha \d+[.,]?\d* mins|em \d+[.,]?\d* ano|em \d+[.,]?\d* dia|em \d+[.,]?\d* mes|em \d+[.,]?\d* min|em \d+[.,]?\d* seg|em \d+[.,]?\d* sem|ha \d+[.,]?\d* ano|ha \d+[.,]?\d* dia|ha \d+[.,]?\d* mes|ha \d+[.,]?\d* min|ha \d+[.,]?\d* seg|ha \d+[.,]?\d* sem|em \d+[.,]?\d* h|ha \d+[.,]?\d* h|ha \d+[.,]?\d* s)(\z|[^\pL\pM\d]|_)");
    ld_rx_exact := Some (rx "(?i)^(dentro de \d+[.,]?\d* segundos|dentro de \d+[.,]?\d* minutos|dentro de \d+[.,]?\d* segundo|dentro de \d+[.,]?\d* semanas|dentro de \d+[.,]?\d* minuto|dentro de \d+[.,]?\d* semana|dentro de \d+[.,]?\d* horas|dentro de \d+[.,]?\d* meses|dentro de \d+[.,]?\d* anos|dentro de \d+[.,]?\d* dias|dentro de \d+[.,]?\d* hora|dentro de \d+[.,]?\d* ano|dentro de \d+[.,]?\d* dia|dentro de \d+[.,]?\d* mes|dentro de \d+[.,]?\d* min|dentro de \d+[.,]?\d* sem|dentro de \d+[.,]?\d* h|dentro de \d+[.,]?\d* s|em \d+[.,]?\d* segundos|ha \d+[.,]?\d* segundos|em \d+[.,]?\d* minutos|em \d+[.,]?\d* segundo|em \d+[.,]?\d* semanas|ha \d+[.,]?\d* minutos|ha \d+[.,]?\d* segundo|ha \d+[.,]?\d* semanas|em \d+[.,]?\d* minuto|em \d+[.,]?\d* semana|ha \d+[.,]?\d* minuto|ha \d+[.,]?\d* semana|em \d+[.,]?\d* horas|em \d+[.,]?\d* meses|ha \d+[.,]?\d* horas|ha \d+[.,]?\d* meses|em \d+[.,]?\d* anos|em \d+[.,]?\d* dias|em \d+[.,]?\d* hora|em \d+[.,]?\d* mins|em \d+[.,]?\d* segs|ha \d+[.,]?\d* anos|ha \d+[.,]?\d* dias|ha \d+[.,]?\d* hora|ha \d+[.,]?\d* mins|em \d+[.,]?\d* ano|em \d+[.,]?\d* dia|em \d+[.,]?\d* mes|em \d+[.,]?\d* min|em \d+[.,]?\d* seg|em \d+[.,]?\d* sem|ha \d+[.,]?\d* ano|ha \d+[.,]?\d* dia|ha \d+[.,]?\d* mes|ha \d+[.,]?\d* min|ha \d+[.,]?\d* seg|ha \d+[.,]?\d* sem|em \d+[.,]?\d* h|ha \d+[.,]?\d* h|ha \d+[.,]?\d* s)$");
    ld_known := [lit "proxima semana";
    lit "semana passada";
    lit "segunda-feira";
    lit "quarta-feira";
    lit "quinta-feira";
    lit "ano passado";
    lit "esta semana";
    lit "este minuto";
    lit "mes passado";
    lit "proximo ano";
    lit "proximo mes";
    lit "sexta-feira";
    lit "terca-feira";
    lit "anteontem";
    lit "esta hora";
    lit "fevereiro";
    lit "septembro";
    lit "da manha";
    lit "da tarde";
    lit "dezembro";
    lit "este ano";
    lit "este mes";
    lit "novembro";
    lit "segundos";
    lit "setembro";
    lit "domingo";
    lit "janeiro";
    lit "minutos";
    lit "outubro";
    lit "segunda";
    lit "segundo";
    lit "semanas";
    lit "agosto";
    lit "amanha";
    lit "minuto";
    lit "quarta";
    lit "quinta";
    lit "sabado";
    lit "semana";
    lit "abril";
    lit "agora";
    lit "atras";
    lit "cerca";
    lit "horas";
    lit "julho";
    lit "junho";
    lit "manha";
    lit "marco";
    lit "meses";
    lit "ontem";
    lit "sexta";
    lit "tarde";
    lit "terca";
    lit "anos";
    lit "dias";
    lit "hoje";
    lit "hora";
    lit "maio";
    lit "abr";
    lit "ago";
    lit "ano";
    lit "dez";
    lit "dia";
    lit "dom";
    lit "fev";
    lit "gmt";
    lit "jan";
    lit "jul";
    lit "jun";
    lit "mai";
    lit "mar";
    lit "mes";
    lit "min";
    lit "nov";
    lit "out";
    lit "qua";
    lit "qui";
    lit "sab";
    lit "seg";
    lit "sem";
    lit "set";
    lit "sex";
    lit "ter";
    lit "utc";
    lit "am";
    lit "as";
    lit "de";
    lit "em";
    lit "ha";
    lit "pm";
    lit " ";
    lit "'";
    lit "+";
    lit ",";
    lit "-";
    lit ".";
    lit "/";
    lit ":";
    lit ";";
    lit "@";
    lit "[";
    lit "]";
    lit "e";
    lit "h";
    lit "m";
    lit "s";
    lit "z";
    lit "|"] |}.
Definition loc_pt_GW : locale := merge loc_pt own_pt_GW.

(** pt.go:362-395 *)
Definition own_pt_LU : locale := Eval vm_compute in
  {| ld_name := lit "pt-LU"; ld_order := lit "DMY"; ld_nospacing := false; ld_splitter := 0;
    ld_charset := runes (lit "");
    ld_abbr := [];
    ld_simpl := [];
    ld_trans := [(lit "da manha", [lit "am"]);
    (lit "da tarde", [lit "pm"]);
    (lit "manha", [lit "am"]);
    (lit "tarde", [lit "pm"])];
    ld_reltype := [];
    ld_relrx := [(rx "(?i)dentro de (\d+[.,]?\d*) segundos", lit "in $1 second");
    (rx "(?i)dentro de (\d+[.,]?\d*) minutos", lit "in $1 minute");
    (rx "(?i)dentro de (\d+[.,]?\d*) segundo", lit "in $1 second");
    (rx "(?i)dentro de (\d+[.,]?\d*) semanas", lit "in $1 week");
    (rx "(?i)dentro de (\d+[.,]?\d*) minuto", lit "in $1 minute");
    (rx "(?i)dentro de (\d+[.,]?\d*) semana", lit "in $1 week");
    (rx "(?i)dentro de (\d+[.,]?\d*) horas", lit "in $1 hour");
    (rx "(?i)dentro de (\d+[.,]?\d*) meses", lit "in $1 month");
    (rx "(?i)dentro de (\d+[.,]?\d*) anos", lit "in $1 year");
    (rx "(?i)dentro de (\d+[.,]?\d*) dias", lit "in $1 day");
    (rx "(?i)dentro de (\d+[.,]?\d*) hora", lit "in $1 hour");
    (rx "(?i)dentro de (\d+[.,]?\d*) ano", lit "in $1 year");
    (rx "(?i)dentro de (\d+[.,]?\d*) dia", lit "in $1 day");
    (rx "(?i)dentro de (\d+[.,]?\d*) mes", lit "in $1 month");
    (rx "(?i)dentro de (\d+[.,]?\d*) min", lit "in $1 minute");
    (rx "(?i)dentro de (\d+[.,]?\d*) sem", lit "in $1 week");
    (rx "(?i)dentro de (\d+[.,]?\d*) h", lit "in $1 hour");
    (rx "(?i)dentro de (\d+[.,]?\d*) s", lit "in $1 second");
    (rx "(?i)ha (\d+[.,]?\d*) s", lit "$1 second ago")];
    ld_rx := Some (rx "(?i)(\A|[^\pL\pM\d]|_)(dentro de \d+[.,]?\d* segundos|dentro de \d+[.,]?\d* minutos|dentro de \d+[.,]?\d* segundo|dentro de \d+[.,]?\d* semanas|dentro de \d+[.,]?\d* minuto|dentro de \d+[.,]?\d* semana|dentro de \d+[.,]?\d* horas|dentro de \d+[.,]?\d* meses|dentro de \d+[.,]?\d* anos|dentro de \d+[.,]?\d* dias|dentro de \d+[.,]?\d* hora|dentro de \d+[.,]?\d* ano|dentro de \d+[.,]?\d* dia|dentro de \d+[.,]?\d* mes|dentro de \d+[.,]?\d* min|dentro de \d+[.,]?\d* sem|dentro de \d+[.,]?\d* h|dentro de \d+[.,]?\d* s|em \d+[.,]?\d* segundos|ha \d+[.,]?\d* segundos|em \d+[.,]?\d* minutos|em \d+[.,]?\d* segundo|em \d+[.,]?\d* semanas|ha \d+[.,]?\d* minutos|ha \d+[.,]?\d* segundo|ha \d+[.,]?\d* semanas|em \d+[.,]?\d* minuto|em \d+[.,]?\d* semana|ha \d+[.,]?\d* minuto|ha \d+[.,]?\d* semana|em \d+[.,]?\d* horas|em \d+[.,]?\d* meses|ha \d+[.,]?\d* horas|ha \d+[.,]?\d* meses|em \d+[.,]?\d* anos|em \d+[.,]?\d* dias|em \d+[.,]?\d* hora|em \d+[.,]?\d* mins|em \d+[.,]?\d* segs|ha \d+[.,]?\d* anos|ha \d+[.,]?\d* dias|ha \d+[.,]?\d* hora|ha \d+[.,]?\d* mins|em \d+[.,]?\d* ano|em \d+[.,]?\d* dia|em \d+[.,]?\d* mes|em \d+[.,]?\d* min|em \d+[.,]?\d* seg|em \d+[.,]?\d* sem|ha \d+[.,]?\d* ano|ha \d+[.,]?\d* dia|ha \d+[.,]?\d* mes|ha \d+[.,]?\d* min|ha \d+[.,]?\d* seg|ha \d+[.,]?\d* sem|em \d+[.,]?\d* h|ha \d+[.,]?\d* h|ha \d+[.,]?\d* s)(\z|[^\pL\pM\d]|_)");
    ld_rx_exact := Some (rx "(?i)^(dentro de \d+[.,]?\d* segundos|dentro de \d+[.,]?\d* minutos|dentro de \d+[.,]?\d* segundo|dentro de \d+[.,]?\d* semanas|dentro de \d+[.,]?\d* minuto|dentro de \d+[.,]?\d* semana|dentro de \d+[.,]?\d* horas|dentro de \d+[.,]?\d* meses|dentro de \d+[.,]?\d* anos|dentro de \d+[.,]?\d* dias|dentro de \d+[.,]?\d* hora|dentro de \d+[.,]?\d* ano|dentro de \d+[.,]?\d* dia|dentro de \d+[.,]?\d* mes|dentro de \d+[.,]?\d* min|dentro de \d+[.,]?\d* sem|dentro de \d+[.,]?\d* h|dentro de \d+[.,]?\d* s|em \d+[.,]?\d* segundos|ha \d+[.,]?\d* segundos|em \d+[.,]?\d* minutos|em \d+[.,]?\d* segundo|em \d+[.,]?\d* semanas|ha \d+[.,]?\d* minutos|ha \d+[.,]?\d* segundo|ha \d+[.,]?\d* semanas|em \d+[.,]?\d* minuto|em \d+[.,]?\d* semana|ha \d+[.,]?\d* minuto|ha \d+[.,]?\d* semana|em \d+[.,]?\d* horas|em \d+[.,]?\d* meses|ha \d+[.,]?\d* horas|ha \d+[.,]?\d* meses|em \d+[.,]?\d* anos|em \d+[.,]?\d* dias|em \d+[.,]?\d* hora|em \d+[.,]?\d* mins|em \d+[.,]?\d* segs|ha \d+[.,]?\d* anos|ha \d+[.,]?\d* dias|ha \d+[.,]?\d* hora|ha \d+[.,]?\d* mins|em \d+[.,]?\d* ano|em \d+[.,]?\d* dia|em \d+[.,]?\d* mes|em \d+[.,]?\d* min|em \d+[.,]?\d* seg|em \d+[.,]?\d* sem|ha \d+[.,]?\d* ano|ha \d+[.,]?\d* dia|ha \d+[.,]?\d* mes|ha \d+[.,]?\d* min|ha \d+[.,]?\d* seg|ha \d+[.,]?\d* sem|em \d+[.,]?\d* h|ha \d+[.,]?\d* h|ha \d+[.,]?\d* s)$");
    ld_known := [lit "proxima semana";
    lit "semana passada";
    lit "segunda-feira";
    lit "quarta-feira";
    lit "quinta-feira";
    lit "ano passado";
    lit "esta semana";
    lit "este minuto";
    lit "mes passado";
    lit "proximo ano";
    lit "proximo mes";
    lit "sexta-feira";
    lit "terca-feira";
    lit "anteontem";
    lit "esta hora";
    lit "fevereiro";
    lit "septembro";
    lit "da manha";
    lit "da tarde";
    lit "dezembro";
    lit "este ano";
    lit "este mes";
    lit "novembro";
    lit "segundos";
    lit "setembro";
    lit "domingo";
    lit "janeiro";
    lit "minutos";
    lit "outubro";
    lit "segunda";
    lit "segundo";
    lit "semanas";
    lit "agosto";
    lit "amanha";
    lit "minuto";
    lit "quarta";
    lit "quinta";
    lit "sabado";
    lit "semana";
    lit "abril";
    lit "agora";
    lit "atras";
    lit "cerca";
    lit "horas";
    lit "julho";
    lit "junho";
    lit "manha";
    lit "marco";
    lit "meses";
    lit "ontem";
    lit "sexta";
    lit "tarde";
    lit "terca";
    lit "anos";
    lit "dias";
    lit "hoje";
    lit "hora";
    lit "maio";
    lit "abr";
    lit "ago";
    lit "ano";
    lit "dez";
    lit "dia";
    lit "dom";
    lit "fev";
    lit "gmt";
    lit "jan";
    lit "jul";
    lit "jun";
    lit "mai";
    lit "mar";
    lit "mes";
    lit "min";
    lit "nov";
    lit "out";
    lit "qua";
    lit "qui";
    lit "sab";
    lit "seg";
    lit "sem";
    lit "set";
    lit "sex";
    lit "ter";
    lit "utc";
    lit "am";
    lit "as";
    lit "de";
    lit "em";
    lit "ha";
    lit "pm";
    lit " ";
    lit "'";
    lit "+";
    lit ",";
    lit "-";
    lit ".";
    lit "/";
    lit ":";
    lit ";";
    lit "@";
    lit "[";
    lit "]";
    lit "e";
    lit "h";
    lit "m";
    lit "s";
    lit "z";
    lit "|"] |}.
Definition loc_pt_LU : locale := merge loc_pt own_pt_LU.

(** pt.go:397-430 *)
Definition own_pt_MO : locale := Eval vm_compute in
  {| ld_name := lit "pt-MO"; ld_order := lit "DMY"; ld_nospacing := false; ld_splitter := 0;
    ld_charset := runes (lit "");
    ld_abbr := [];
    ld_simpl := [];
    ld_trans := [(lit "da manha", [lit "am"]);
    (lit "da tarde", [lit "pm"]);
    (lit "manha", [lit "am"]);
    (lit "tarde", [lit "pm"])];
    ld_reltype := [];
    ld_relrx := [(rx "(?i)dentro de (\d+[.,]?\d*) segundos", lit "in $1 second");
    (rx "(?i)dentro de (\d+[.,]?\d*) minutos", lit "in $1 minute");
    (rx "(?i)dentro de (\d+[.,]?\d*) segundo", lit "in $1 second");
    (rx "(?i)dentro de (\d+[.,]?\d*) semanas", lit "in $1 week");
    (rx "(?i)dentro de (\d+[.,]?\d*) minuto", lit "in $1 minute");
    (rx "(?i)dentro de (\d+[.,]?\d*) semana", lit "in $1 week");
    (rx "(?i)dentro de (\d+[.,]?\d*) horas", lit "in $1 hour");
    (rx "(?i)dentro de (\d+[.,]?\d*) meses", lit "in $1 month");
    (rx "(?i)dentro de (\d+[.,]?\d*) anos", lit "in $1 year");
    (rx "(?i)dentro de (\d+[.,]?\d*) dias", lit "in $1 day");
    (rx "(?i)dentro de (\d+[.,]?\d*) hora", lit "in $1 hour");
    (rx "(?i)dentro de (\d+[.,]?\d*) ano", lit "in $1 year");
    (rx "(?i)dentro de (\d+[.,]?\d*) dia", lit "in $1 day");
    (rx "(?i)dentro de (\d+[.,]?\d*) mes", lit "in $1 month");
    (rx "(?i)dentro de (\d+[.,]?\d*) min", lit "in $1 minute");
    (rx "(?i)dentro de (\d+[.,]?\d*) sem", lit "in $1 week");
    (rx "(?i)dentro de (\d+[.,]?\d*) h", lit "in $1 hour");
    (rx "(?i)dentro de (\d+[.,]?\d*) s", lit "in $1 second");
    (rx "(?i)ha (\d+[.,]?\d*) s", lit "$1 second ago")];
    ld_rx := Some (rx "(?i)(\A|[^\pL\pM\d]|_)(dentro de \d+[.,]?\d* segundos|dentro de \d+[.,]?\d* minutos|dentro de \d+[.,]?\d* segundo|dentro de \d+[.,]?\d* semanas|dentro de \d+[.,]?\d* minuto|dentro de \d+[.,]?\d* semana|dentro de \d+[.,]?\d* horas|dentro de \d+[.,]?\d* meses|dentro de \d+[.,]?\d* anos|dentro de \d+[.,]?\d* dias|dentro de \d+[.,]?\d* hora|dentro de \d+[.,]?\d* ano|dentro de \d+[.,]?\d* dia|dentro de \d+[.,]?\d* mes|dentro de \d+[.,]?\d* min|dentro de \d+[.,]?\d* sem|dentro de \d+[.,]?\d* h|dentro de \d+[.,]?\d* s|em \d+[.,]?\d* segundos|ha \d+[.,]?\d* segundos|em \d+[.,]?\d* minutos|em \d+[.,]?\d* segundo|em \d+[.,]?\d* semanas|ha \d+[.,]?\d* minutos|ha \d+[.,]?\d* segundo|ha \d+[.,]?\d* semanas|em \d+[.,]?\d* minuto|em \d+[.,]?\d* semana|ha \d+[.,]?\d* minuto|ha \d+[.,]?\d* semana|em \d+[.,]?\d* horas|em \d+[.,]?\d* meses|ha \d+[.,]?\d* horas|ha \d+[.,]?\d* meses|em \d+[.,]?\d* anos|em \d+[.,]?\d* dias|em \d+[.,]?\d* hora|em \d+[.,]?\d* mins|em \d+[.,]?\d* segs|ha \d+[.,]?\d* anos|ha \d+[.,]?\d* dias|ha \d+[.,]?\d* hora|ha \d+[.,]?\d* mins|em \d+[.,]?\d* ano|em \d+[.,]?\d* dia|em \d+[.,]?\d* mes|em \d+[.,]?\d* min|em \d+[.,]?\d* seg|em \d+[.,]?\d* sem|ha \d+[.,]?\d* ano|ha \d+[.,]?\d* dia|ha \d+[.,]?\d* mes|ha \d+[.,]?\d* min|ha \d+[.,]?\d* seg|ha \d+[.,]?\d* sem|em \d+[.,]?\d* h|ha \d+[.,]?\d* h|ha \d+[.,]?\d* s)(\z|[^\pL\pM\d]|_)");
    ld_rx_exact := Some (rx "(?i)^(dentro de \d+[.,]?\d* segundos|dentro de \d+[.,]?\d* minutos|dentro de \d+[.,]?\d* segundo|dentro de \d+[.,]?\d* semanas|dentro de \d+[.,]?\d* minuto|dentro de \d+[.,]?\d* semana|dentro de \d+[.,]?\d* horas|dentro de \d+[.,]?\d* meses|dentro de \d+[.,]?\d* anos|dentro de \d+[.,]?\d* dias|dentro de \d+[.,]?\d* hora|dentro de \d+[.,]?\d* ano|dentro de \d+[.,]?\d* dia|dentro de \d+[.,]?\d* mes|dentro de \d+[.,]?\d* min|dentro de \d+[.,]?\d* sem|dentro de \d+[.,]?\d* h|dentro de \d+[.,]?\d* s|em \d+[.,]?\d* segundos|ha \d+[.,]?\d* segundos|em \d+[.,]?\d* minutos|em \d+[.,]?\d* segundo|em \d+[.,]?\d* semanas|ha \d+[.,]?\d* minutos|ha \d+[.,]?\d* segundo|ha \d+[.,]?\d* semanas|em \d+[.,]?\d* minuto|em \d+[.,]?\d* semana|ha \d+[.,]?\d* minuto|ha \d+[.,]?\d* semana|em \d+[.,]?\d* horas|em \d+[.,]?\d* meses|ha \d+[.,]?\d* horas|ha \d+[.,]?\d* meses|em \d+[.,]?\d* anos|em \d+[.,]?\d* dias|em \d+[.,]?\d* hora|em \d+[.,]?\d* mins|em \d+[.,]?\d* segs|ha \d+[.,]?\d* anos|ha \d+[.,]?\d* dias|ha \d+[.,]?\d* hora|ha \d+[.,]?\d* mins|em \d+[.,]?\d* ano|em \d+[.,]?\d* dia|em \d+[.,]?\d* mes|em \d+[.,]?\d* min|em \d+[.,]?\d* seg|em \d+[.,]?\d* sem|ha \d+[.,]?\d* ano|ha \d+[.,]?\d* dia|ha \d+[.,]?\d* mes|ha \d+[.,]?\d* min|ha \d+[.,]?\d* seg|ha \d+[.,]?\d* sem|em \d+[.,]?\d* h|ha \d+[.,]?\d* h|ha \d+[.,]?\d* s)$");
    ld_known := [lit "proxima semana";
    lit "semana passada";
    lit "segunda-feira";
    lit "quarta-feira";
    lit "quinta-feira";
    lit "ano passado";
    lit "esta semana";
    lit "este minuto";
    lit "mes passado";
    lit "proximo ano";
    lit "proximo mes";
    lit "sexta-feira";
    lit "terca-feira";
    lit "anteontem";
    lit "esta hora";
    lit "fevereiro";
    lit "septembro";
    lit "da manha";
    lit "da tarde";
    lit "dezembro";
    lit "este ano";
    lit "este mes";
    lit "novembro";
    lit "segundos";
    lit "setembro";
    lit "domingo";
    lit "janeiro";
    lit "minutos";
    lit "outubro";
    lit "segunda";
    lit "segundo";
    lit "semanas";
    lit "agosto";
    lit "amanha";
    lit "minuto";
    lit "quarta";
    lit "quinta";
    lit "sabado";
    lit "semana";
    lit "abril";
    lit "agora";
    lit "atras";
    lit "cerca";
    lit "horas";
    lit "julho";
    lit "junho";
    lit "manha";
    lit "marco";
    lit "meses";
    lit "ontem";
    lit "sexta";
    lit "tarde";
    lit "terca";
    lit "anos";
    lit "dias";
    lit "hoje";
    lit "hora";
    lit "maio";
    lit "abr";
    lit "ago";
    lit "ano";
    lit "dez";
    lit "dia";
    lit "dom";
    lit "fev";
    lit "gmt";
    lit "jan";
    lit "jul";
    lit "jun";
    lit "mai";
    lit "mar";
    lit "mes";
    lit "min";
    lit "nov";
    lit "out";
    lit "qua";
    lit "qui";
    lit "sab";
    lit "seg";
    lit "sem";
    lit "set";
    lit "sex";
    lit "ter";
    lit "utc";
    lit "am";
    lit "as";
    lit "de";
    lit "em";
    lit "ha";
    lit "pm";
    lit " ";
    lit "'";
    lit "+";
    lit ",";
    lit "-";
    lit ".";
    lit "/";
    lit ":";
    lit ";";
    lit "@";
    lit "[";
    lit "]";
    lit "e";
    lit "h";
    lit "m";
    lit "s";
    lit "z";
    lit "|"] |}.
Definition loc_pt_MO : locale := merge loc_pt own_pt_MO.

(** pt.go:432-465 *)
Definition own_pt_MZ : locale := Eval vm_compute in
  {| ld_name := lit "pt-MZ"; ld_order := lit "DMY"; ld_nospacing := false; ld_splitter := 0;
    ld_charset := runes (lit "");
    ld_abbr := [];
    ld_simpl := [];
    ld_trans := [(lit "da manha", [lit "am"]);
    (lit "da tarde", [lit "pm"]);
    (lit "manha", [lit "am"]);
    (lit "tarde", [lit "pm"])];
    ld_reltype := [];
    ld_relrx := [(rx "(?i)dentro de (\d+[.,]?\d*) segundos", lit "in $1 second");
    (rx "(?i)dentro de (\d+[.,]?\d*) minutos", lit "in $1 minute");
    (rx "(?i)dentro de (\d+[.,]?\d*) segundo", lit "in $1 second");
    (rx "(?i)dentro de (\d+[.,]?\d*) semanas", lit "in $1 week");
    (rx "(?i)dentro de (\d+[.,]?\d*) minuto", lit "in $1 minute");
    (rx "(?i)dentro de (\d+[.,]?\d*) semana", lit "in $1 week");
    (rx "(?i)dentro de (\d+[.,]?\d*) horas", lit "in $1 hour");
    (rx "(?i)dentro de (\d+[.,]?\d*) meses", lit "in $1 month");
    (rx "(?i)dentro de (\d+[.,]?\d*) anos", lit "in $1 year");
    (rx "(?i)dentro de (\d+[.,]?\d*) dias", lit "in $1 day");
    (rx "(?i)dentro de (\d+[.,]?\d*) hora", lit "in $1 hour");
    (rx "(?i)dentro de (\d+[.,]?\d*) ano", lit "in $1 year");
    (rx "(?i)dentro de (\d+[.,]?\d*) dia", lit "in $1 day");
    (rx "(?i)dentro de (\d+[.,]?\d*) mes", lit "in $1 month");
    (rx "(?i)dentro de (\d+[.,]?\d*) min", lit "in $1 minute");
    (rx "(?i)dentro de (\d+[.,]?\d*) sem", lit "in $1 week");
    (rx "(?i)dentro de (\d+[.,]?\d*) h", lit "in $1 hour");
    (rx "(?i)dentro de (\d+[.,]?\d*) s", lit "in $1 second");
    (rx "(?i)ha (\d+[.,]?\d*) s", lit "$1 second ago")];
    ld_rx := Some (rx "(?i)(\A|[^\pL\pM\d]|_)(dentro de \d+[.,]?\d* segundos|dentro de \d+[.,]?\d* minutos|dentro de \d+[.,]?\d* segundo|dentro de \d+[.,]?\d* semanas|dentro de \d+[.,]?\d* minuto|dentro de \d+[.,]?\d* semana|dentro de \d+[.,]?\d* horas|dentro de \d+[.,]?\d* meses|dentro de \d+[.,]?\d* anos|dentro de \d+[.,]?\d* dias|dentro de \d+[.,]?\d* hora|dentro de \d+[.,]?\d* ano|dentro de \d+[.,]?\d* dia|dentro de \d+[.,]?\d* mes|dentro de \d+[.,]?\d* min|dentro de \d+[.,]?\d* sem|dentro de \d+[.,]?\d* h|dentro de \d+[.,]?\d* s|em \d+[.,]?\d* segundos|ha \d+[.,]?\d* segundos|em \d+[.,]?\d* minutos|em \d+[.,]?\d* segundo|em \d+[.,]?\d* semanas|ha \d+[.,]?\d* minutos|ha \d+[.,]?\d* segundo|ha \d+[.,]?\d* semanas|em \d+[.,]?\d* minuto|em \d+[.,]?\d* semana|ha \d+[.,]?\d* minuto|ha \d+[.,]?\d* semana|em \d+[.,]?\d* horas|em \d+[.,]?\d* meses|ha \d+[.,]?\d* horas|ha \d+[.,]?\d* meses|em \d+[.,]?\d* anos|em \d+[.,]?\d* dias|em \d+[.,]?\d* hora|em \d+[.,]?\d* mins|em \d+[.,]?\d* segs|ha \d+[.,]?\d* anos|ha \d+[.,]?\d* dias|ha \d+[.,]?\d* hora|ha \d+[.,]?\d* mins|em \d+[.,]?\d* ano|em \d+[.,]?\d* dia|em \d+[.,]?\d* mes|em \d+[.,]?\d* min|em \d+[.,]?\d* seg|em \d+[.,]?\d* sem|ha \d+[.,]?\d* ano|ha \d+[.,]?\d* dia|ha \d+[.,]?\d* mes|ha \d+[.,]?\d* min|ha \d+[.,]?\d* seg|ha \d+[.,]?\d* sem|em \d+[.,]?\d* h|ha \d+[.,]?\d* h|ha \d+[.,]?\d* s)(\z|[^\pL\pM\d]|_)");
    ld_rx_exact := Some (rx "(?i)^(dentro de \d+[.,]?\d* segundos|dentro de \d+[.,]?\d* minutos|dentro de \d+[.,]?\d* segundo|dentro de \d+[.,]?\d* semanas|dentro de \d+[.,]?\d* minuto|dentro de \d+[.,]?\d* semana|dentro de \d+[.,]?\d* horas|dentro de \d+[.,]?\d* meses|dentro de \d+[.,]?\d* anos|dentro de \d+[.,]?\d* dias|dentro de \d+[.,]?\d* hora|dentro de \d+[.,]?\d* ano|dentro de \d+[.,]?\d* dia|dentro de \d+[.,]?\d* mes|dentro de \d+[.,]?\d* min|dentro de \d+[.,]?\d* sem|dentro de \d+[.,]?\d* h|dentro de \d+[.,]?\d* s|em \d+[.,]?\d* segundos|ha \d+[.,]?\d* segundos|em \d+[.,]?\d* minutos|em \d+[.,]?\d* segundo|em \d+[.,]?\d* semanas|ha \d+[.,]?\d* minutos|ha \d+[.,]?\d* segundo|ha \d+[.,]?\d* semanas|em \d+[.,]?\d* minuto|em \d+[.,]?\d* semana|ha \d+[.,]?\d* minuto|ha \d+[.,]?\d* semana|em \d+[.,]?\d* horas|em \d+[.,]?\d* meses|ha \d+[.,]?\d* horas|ha \d+[.,]?\d* meses|em \d+[.,]?\d* anos|em \d+[.,]?\d* dias|em \d+[.,]?\d* hora|em \d+[.,]?\d* mins|em \d+[.,]?\d* segs|ha \d+[.,]?\d* anos|ha \d+[.,]?\d* dias|ha \d+[.,]?\d* hora|ha \d+[.,]?\d* mins|em \d+[.,]?\d* ano|em \d+[.,]?\d* dia|em \d+[.,]?\d* mes|em \d+[.,]?\d* min|em \d+[.,]?\d* seg|em \d+[.,]?\d* sem|ha \d+[.,]?\d* ano|ha \d+[.,]?\d* dia|ha \d+[.,]?\d* mes|ha \d+[.,]?\d* min|ha \d+[.,]?\d* seg|ha \d+[.,]?\d* sem|em \d+[.,]?\d* h|ha \d+[.,]?\d* h|ha \d+[.,]?\d* s)$");
    ld_known := [lit "proxima semana";
    lit "semana passada";
    lit "segunda-feira";
    lit "quarta-feira";
    lit "quinta-feira";
    lit "ano passado";
    lit "esta semana";
    lit "este minuto";
    lit "mes passado";
    lit "proximo ano";
    lit "proximo mes";
    lit "sexta-feira";
    lit "terca-feira";
    lit "anteontem";
    lit "esta hora";
    lit "fevereiro";
    lit "septembro";
    lit "da manha";
    lit "da tarde";
    lit "dezembro";
    lit "este ano";
    lit "este mes";
    lit "novembro";
    lit "segundos";
    lit "setembro";
    lit "domingo";
    lit "janeiro";
    lit "minutos";
    lit "outubro";
    lit "segunda";
    lit "segundo";
    lit "semanas";
    lit "agosto";
    lit "amanha";
    lit "minuto";
    lit "quarta";
    lit "quinta";
    lit "sabado";
    lit "semana";
    lit "abril";
    lit "agora";
    lit "atras";
    lit "cerca";
    lit "horas";
    lit "julho";
    lit "junho";
    lit "manha";
    lit "marco";
    lit "meses";
    lit "ontem";
    lit "sexta";
    lit "tarde";
    lit "terca";
    lit "anos";
    lit "dias";
    lit "hoje";
    lit "hora";
    lit "maio";
    lit "abr";
    lit "ago";
    lit "ano";
    lit "dez";
    lit "dia";
    lit "dom";
    lit "fev";
    lit "gmt";
    lit "jan";
    lit "jul";
    lit "jun";
    lit "mai";
    lit "mar";
    lit "mes";
    lit "min";
    lit "nov";
    lit "out";
    lit "qua";
    lit "qui";
    lit "sab";
    lit "seg";
    lit "sem";
    lit "set";
    lit "sex";
    lit "ter";
    lit "utc";
    lit "am";
    lit "as";
    lit "de";
    lit "em";
    lit "ha";
    lit "pm";
    lit " ";
    lit "'";
    lit "+";
    lit ",";
    lit "-";
    lit ".";
    lit "/";
    lit ":";
    lit ";";
    lit "@";
    lit "[";
    lit "]";
    lit "e";
    lit "h";
    lit "m";
    lit "s";
    lit "z";
    lit "|"] |}.
Definition loc_pt_MZ : locale := merge loc_pt own_pt_MZ.

(** pt.go:467-500 *)
Definition own_pt_PT : locale := Eval vm_compute in
  {| ld_name := lit "pt-PT"; ld_order := lit "DMY"; ld_nospacing := false; ld_splitter := 0;
    ld_charset := runes (lit "");
    ld_abbr := [];
    ld_simpl := [];
    ld_trans := [(lit "da manha", [lit "am"]);
    (lit "da tarde", [lit "pm"]);
    (lit "manha", [lit "am"]);
    (lit "tarde", [lit "pm"])];
    ld_reltype := [];
    ld_relrx := [(rx "(?i)dentro de (\d+[.,]?\d*) segundos", lit "in $1 second");
    (rx "(?i)dentro de (\d+[.,]?\d*) minutos", lit "in $1 minute");
    (rx "(?i)dentro de (\d+[.,]?\d*) segundo", lit "in $1 second");
    (rx "(?i)dentro de (\d+[.,]?\d*) semanas", lit "in $1 week");
    (rx "(?i)dentro de (\d+[.,]?\d*) minuto", lit "in $1 minute");
    (rx "(?i)dentro de (\d+[.,]?\d*) semana", lit "in $1 week");
    (rx "(?i)dentro de (\d+[.,]?\d*) horas", lit "in $1 hour");
    (rx "(?i)dentro de (\d+[.,]?\d*) meses", lit "in $1 month");
    (rx "(?i)dentro de (\d+[.,]?\d*) anos", lit "in $1 year");
    (rx "(?i)dentro de (\d+[.,]?\d*) dias", lit "in $1 day");
    (rx "(?i)dentro de (\d+[.,]?\d*) hora", lit "in $1 hour");
    (rx "(?i)dentro de (\d+[.,]?\d*) ano", lit "in $1 year");
    (rx "(?i)dentro de (\d+[.,]?\d*) dia", lit "in $1 day");
    (rx "(?i)dentro de (\d+[.,]?\d*) mes", lit "in $1 month");
    (rx "(?i)dentro de (\d+[.,]?\d*) min", lit "in $1 minute");
    (rx "(?i)dentro de (\d+[.,]?\d*) sem", lit "in $1 week");
    (rx "(?i)dentro de (\d+[.,]?\d*) h", lit "in $1 hour");
    (rx "(?i)dentro de (\d+[.,]?\d*) s", lit "in $1 second");
    (rx "(?i)ha (\d+[.,]?\d*) s", lit "$1 second ago")];
    ld_rx := Some (rx "(?i)(\A|[^\pL\pM\d]|_)(dentro de \d+[.,]?\d* segundos|dentro de \d+[.,]?\d* minutos|dentro de \d+[.,]?\d* segundo|dentro de \d+[.,]?\d* semanas|dentro de \d+[.,]?\d* minuto|dentro de \d+[.,]?\d* semana|dentro de \d+[.,]?\d* horas|dentro de \d+[.,]?\d* meses|dentro de \d+[.,]?\d* anos|dentro de \d+[.,]?\d* dias|dentro de \d+[.,]?\d* hora|dentro de \d+[.,]?\d* ano|dentro de \d+[.,]?\d* dia|dentro de \d+[.,]?\d* mes|dentro de \d+[.,]?\d* min|dentro de \d+[.,]?\d* sem|dentro de \d+[.,]?\d* h|dentro de \d+[.,]?\d* s|em \d+[.,]?\d* segundos|ha \d+[.,]?\d* segundos|em \d+[.,]?\d* minutos|em \d+[.,]?\d* segundo|em \d+[.,]?\d* semanas|ha \d+[.,]?\d* minutos|ha \d+[.,]?\d* segundo|ha \d+[.,]?\d* semanas|em \d+[.,]?\d* minuto|em \d+[.,]?\d* semana|ha \d+[.,]?\d* minuto|ha \d+[.,]?\d* semana|em \d+[.,]?\d* horas|em \d+[.,]?\d* meses|ha \d+[.,]?\d* horas|ha \d+[.,]?\d* meses|em \d+[.,]?\d* anos|em \d+[.,]?\d* dias|em \d+[.,]?\d* hora|em \d+[.,]?\d* mins|em \d+[.,]?\d* segs|ha \d+[.,]?\d* anos|ha \d+[.,]?\d* dias|ha \d+[.,]?\d* hora|ha \d+[.,]?\d* mins|em \d+[.,]?\d* ano|em \d+[.,]?\d* dia|em \d+[.,]?\d* mes|em \d+[.,]?\d* min|em \d+[.,]?\d* seg|em \d+[.,]?\d* sem|ha \d+[.,]?\d* ano|ha \d+[.,]?\d* dia|ha \d+[.,]?\d* mes|ha \d+[.,]?\d* min|ha \d+[.,]?\d* seg|ha \d+[.,]?\d* sem|em \d+[.,]?\d* h|ha \d+[.,]?\d* h|ha \d+[.,]?\d* s)(\z|[^\pL\pM\d]|_)");
    ld_rx_exact := Some (rx "(?i)^(dentro de \d+[.,]?\d* segundos|dentro de \d+[.,]?\d* minutos|dentro de \d+[.,]?\d* segundo|dentro de \d+[.,]?\d* semanas|dentro de \d+[.,]?\d* minuto|dentro de \d+[.,]?\d* semana|dentro de \d+[.,]?\d* horas|dentro de \d+[.,]?\d* meses|dentro de \d+[.,]?\d* anos|dentro de \d+[.,]?\d* dias|dentro de \d+[.,]?\d* hora|dentro de \d+[.,]?\d* ano|dentro de \d+[.,]?\d* dia|dentro de \d+[.,]?\d* mes|dentro de \d+[.,]?\d* min|dentro de \d+[.,]?\d* sem|dentro de \d+[.,]?\d* h|dentro de \d+[.,]?\d* s|em \d+[.,]?\d* segundos|ha \d+[.,]?\d* segundos|em \d+[.,]?\d* minutos|em \d+[.,]?\d* segundo|em \d+[.,]?\d* semanas|ha \d+[.,]?\d* minutos|ha \d+[.,]?\d* segundo|ha \d+[.,]?\d* semanas|em \d+[.,]?\d* minuto|em \d+[.,]?\d* semana|ha \d+[.,]?\d* minuto|ha \d+[.,]?\d* semana|em \d+[.,]?\d* horas|em \d+[.,]?\d* meses|ha \d+[.,]?\d* horas|ha \d+[.,]?\d* meses|em \d+[.,]?\d* anos|em \d+[.,]?\d* dias|em \d+[.,]?\d* hora|em \d+[.,]?\d* mins|em \d+[.,]?\d* segs|ha \d+[.,]?\d* anos|ha \d+[.,]?\d* dias|ha \d+[.,]?\d* hora|ha \d+[.,]?\d* mins|em \d+[.,]?\d* ano|em \d+[.,]?\d* dia|em \d+[.,]?\d* mes|em \d+[.,]?\d* min|em \d+[.,]?\d* seg|em \d+[.,]?\d* sem|ha \d+[.,]?\d* ano|ha \d+[.,]?\d* dia|ha \d+[.,]?\d* mes|ha \d+[.,]?\d* min|ha \d+[.,]?\d* seg|ha \d+[.,]?\d* sem|em \d+[.,]?\d* h|ha \d+[.,]?\d* h|ha \d+[.,]?\d* s)$");
    ld_known := [lit "proxima semana";
    lit "semana passada";
    lit "segunda-feira";
    lit "quarta-feira";
    lit "quinta-feira";
    lit "ano passado";
    lit "esta semana";
    lit "este minuto";
    lit "mes passado";
    lit "proximo ano";
    lit "proximo mes";
    lit "sexta-feira";
    lit "terca-feira";
    lit "anteontem";
    lit "esta hora";
    lit "fevereiro";
    lit "septembro";
    lit "da manha";
    lit "da tarde";
    lit "dezembro";
    lit "este ano";
    lit "este mes";
    lit "novembro";
    lit "segundos";
    lit "setembro";
    lit "domingo";
    lit "janeiro";
    lit "minutos";
    lit "outubro";
    lit "segunda";
    lit "segundo";
    lit "semanas";
    lit "agosto";
    lit "amanha";
    lit "minuto";
    lit "quarta";
    lit "quinta";
    lit "sabado";
    lit "semana";
    lit "abril";
    lit "agora";
    lit "atras";
    lit "cerca";
    lit "horas";
    lit "julho";
    lit "junho";
    lit "manha";
    lit "marco";
    lit "meses";
    lit "ontem";
    lit "sexta";
    lit "tarde";
    lit "terca";
    lit "anos";
    lit "dias";
    lit "hoje";
    lit "hora";
    lit "maio";
    lit "abr";
    lit "ago";
    lit "ano";
    lit "dez";
    lit "dia";
    lit "dom";
    lit "fev";
    lit "gmt";
    lit "jan";
    lit "jul";
    lit "jun";
    lit "mai";
    lit "mar";
    lit "mes";
    lit "min";
    lit "nov";
    lit "out";
    lit "qua";
    lit "qui";
    lit "sab";
    lit "seg";
    lit "sem";
    lit "set";
    lit "sex";
    lit "ter";
    lit "utc";
    lit "am";
    lit "as";
    lit "de";
    lit "em";
    lit "ha";
    lit "pm";
    lit " ";
    lit "'";
    lit "+";
    lit ",";
    lit "-";
    lit ".";
    lit "/";
    lit ":";
    lit ";";
    lit "@";
    lit "[";
    lit "]";
    lit "e";
    lit "h";
    lit "m";
    lit "s";
    lit "z";
    lit "|"] |}.
Definition loc_pt_PT : locale := merge loc_pt own_pt_PT.

(** pt.go:502-535 *)
Definition own_pt_ST : locale := Eval vm_compute in
  {| ld_name := lit "pt-ST"; ld_order := lit "DMY"; ld_nospacing := false; ld_splitter := 0;
    ld_charset := runes (lit "");
    ld_abbr := [];
    ld_simpl := [];
    ld_trans := [(lit "da manha", [lit "am"]);
    (lit "da tarde", [lit "pm"]);
    (lit "manha", [lit "am"]);
    (lit "tarde", [lit "pm"])];
    ld_reltype := [];
    ld_relrx := [(rx "(?i)dentro de (\d+[.,]?\d*) segundos", lit "in $1 second");
    (rx "(?i)dentro de (\d+[.,]?\d*) minutos", lit "in $1 minute");
    (rx "(?i)dentro de (\d+[.,]?\d*) segundo", lit "in $1 second");
    (rx "(?i)dentro de (\d+[.,]?\d*) semanas", lit "in $1 week");
    (rx "(?i)dentro de (\d+[.,]?\d*) minuto", lit "in $1 minute");
    (rx "(?i)dentro de (\d+[.,]?\d*) semana", lit "in $1 week");
    (rx "(?i)dentro de (\d+[.,]?\d*) horas", lit "in $1 hour");
    (rx "(?i)dentro de (\d+[.,]?\d*) meses", lit "in $1 month");
    (rx "(?i)dentro de (\d+[.,]?\d*) anos", lit "in $1 year");
    (rx "(?i)dentro de (\d+[.,]?\d*) dias", lit "in $1 day");
    (rx "(?i)dentro de (\d+[.,]?\d*) hora", lit "in $1 hour");
    (rx "(?i)dentro de (\d+[.,]?\d*) ano", lit "in $1 year");
    (rx "(?i)dentro de (\d+[.,]?\d*) dia", lit "in $1 day");
    (rx "(?i)dentro de (\d+[.,]?\d*) mes", lit "in $1 month");
    (rx "(?i)dentro de (\d+[.,]?\d*) min", lit "in $1 minute");
    (rx "(?i)dentro de (\d+[.,]?\d*) sem", lit "in $1 week");
    (rx "(?i)dentro de (\d+[.,]?\d*) h", lit "in $1 hour");
    (rx "(?i)dentro de (\d+[.,]?\d*) s", lit "in $1 second");
    (rx "(?i)ha (\d+[.,]?\d*) s", lit "$1 second ago")];
    ld_rx := Some (rx "(?i)(\A|[^\pL\pM\d]|_)(dentro de \d+[.,]?\d* segundos|dentro de \d+[.,]?\d* minutos|dentro de \d+[.,]?\d* segundo|dentro de \d+[.,]?\d* semanas|dentro de \d+[.,]?\d* minuto|dentro de \d+[.,]?\d* semana|dentro de \d+[.,]?\d* horas|dentro de \d+[.,]?\d* meses|dentro de \d+[.,]?\d* anos|dentro de \d+[.,]?\d* dias|dentro de \d+[.,]?\d* hora|dentro de \d+[.,]?\d* ano|dentro de \d+[.,]?\d* dia|dentro de \d+[.,]?\d* mes|dentro de \d+[.,]?\d* min|dentro de \d+[.,]?\d* sem|dentro de \d+[.,]?\d* h|dentro de \d+[.,]?\d* s|em \d+[.,]?\d* segundos|ha \d+[.,]?\d* segundos|em \d+[.,]?\d* minutos|em \d+[.,]?\d* segundo|em \d+[.,]?\d* semanas|ha \d+[.,]?\d* minutos|ha \d+[.,]?\d* segundo|ha \d+[.,]?\d* semanas|em \d+[.,]?\d* minuto|em \d+[.,]?\d* semana|ha \d+[.,]?\d* minuto|ha \d+[.,]?\d* semana|em \d+[.,]?\d* horas|em \d+[.,]?\d* meses|ha \d+[.,]?\d* horas|ha \d+[.,]?\d* meses|em \d+[.,]?\d* anos|em \d+[.,]?\d* dias|em \d+[.,]?\d* hora|em \d+[.,]?\d* mins|em \d+[.,]?\d* segs|ha \d+[.,]?\d* anos|ha \d+[.,]?\d* dias|ha \d+[.,]?\d* hora|ha \d+[.,]?\d* mins|em \d+[.,]?\d* ano|em \d+[.,]?\d* dia|em \d+[.,]?\d* mes|em \d+[.,]?\d* min|em \d+[.,]?\d* seg|em \d+[.,]?\d* sem|ha \d+[.,]?\d* ano|ha \d+[.,]?\d* dia|ha \d+[.,]?\d* mes|ha \d+[.,]?\d* min|ha \d+[.,]?\d* seg|ha \d+[.,]?\d* sem|em \d+[.,]?\d* h|ha \d+[.,]?\d* h|ha \d+[.,]?\d* s)(\z|[^\pL\pM\d]|_)");
    ld_rx_exact := Some (rx "(?i)^(dentro de \d+[.,]?\d* segundos|dentro de \d+[.,]?\d* minutos|dentro de \d+[.,]?\d* segundo|dentro de \d+[.,]?\d* semanas|dentro de \d+[.,]?\d* minuto|dentro de \d+[.,]?\d* semana|dentro de \d+[.,]?\d* horas|dentro de \d+[.,]?\d* meses|dentro de \d+[.,]?\d* anos|dentro de \d+[.,]?\d* dias|dentro de \d+[.,]?\d* hora|dentro de \d+[.,]?\d* ano|dentro de \d+[.,]?\d* dia|dentro de \d+[.,]?\d* mes|dentro de \d+[.,]?\d* min|dentro de \d+[.,]?\d* sem|dentro de \d+[.,]?\d* h|dentro de \d+[.,]?\d* s|em \d+[.,]?\d* segundos|ha \d+[.,]?\d* segundos|em \d+[.,]?\d* minutos|em \d+[.,]?\d* segundo|em \d+[.,]?\d* semanas|ha \d+[.,]?\d* minutos|ha \d+[.,]?\d* segundo|ha \d+[.,]?\d* semanas|em \d+[.,]?\d* minuto|em \d+[.,]?\d* semana|ha \d+[.,]?\d* minuto|ha \d+[.,]?\d* semana|em \d+[.,]?\d* horas|em \d+[.,]?\d* meses|ha \d+[.,]?\d* horas|ha \d+[.,]?\d* meses|em \d+[.,]?\d* anos|em \d+[.,]?\d* dias|em \d+[.,]?\d* hora|em \d+[.,]?\d* mins|em \d+[.,]?\d* segs|ha \d+[.,]?\d* anos|ha \d+[.,]?\d* dias|ha \d+[.,]?\d* hora|ha \d+[.,]?\d* mins|em \d+[.,]?\d* ano|em \d+[.,]?\d* dia|em \d+[.,]?\d* mes|em \d+[.,]?\d* min|em \d+[.,]?\d* seg|em \d+[.,]?\d* sem|ha \d+[.,]?\d* ano|ha \d+[.,]?\d* dia|ha \d+[.,]?\d* mes|ha \d+[.,]?\d* min|ha \d+[.,]?\d* seg|ha \d+[.,]?\d* sem|em \d+[.,]?\d* h|ha \d+[.,]?\d* h|ha \d+[.,]?\d* s)$");
    ld_known := [lit "proxima semana";
    lit "semana passada";
    lit "segunda-feira";
    lit "quarta-feira";
    lit "quinta-feira";
    lit "ano passado";
    lit "esta semana";
    lit "este minuto";
    lit "mes passado";
    lit "proximo ano";
    lit "proximo mes";
    lit "sexta-feira";
    lit "terca-feira";
    lit "anteontem";
    lit "esta hora";
    lit "fevereiro";
    lit "septembro";
    lit "da manha";
    lit "da tarde";
    lit "dezembro";
    lit "este ano";
    lit "este mes";
    lit "novembro";
    lit "segundos";
    lit "setembro";
    lit "domingo";
    lit "janeiro";
    lit "minutos";
    lit "outubro";
    lit "segunda";
    lit "segundo";
    lit "semanas";
    lit "agosto";
    lit "amanha";
    lit "minuto";
    lit "quarta";
    lit "quinta";
    lit "sabado";
    lit "semana";
    lit "abril";
    lit "agora";
    lit "atras";
    lit "cerca";
    lit "horas";
    lit "julho";
    lit "junho";
    lit "manha";
    lit "marco";
    lit "meses";
    lit "ontem";
    lit "sexta";
    lit "tarde";
    lit "terca";
    lit "anos";
    lit "dias";
    lit "hoje";
    lit "hora";
    lit "maio";
    lit "abr";
    lit "ago";
    lit "ano";
    lit "dez";
    lit "dia";
    lit "dom";
    lit "fev";
    lit "gmt";
    lit "jan";
    lit "jul";
    lit "jun";
    lit "mai";
    lit "mar";
    lit "mes";
    lit "min";
    lit "nov";
    lit "out";
    lit "qua";
    lit "qui";
    lit "sab";
    lit "seg";
    lit "sem";
    lit "set";
    lit "sex";
    lit "ter";
    lit "utc";
    lit "am";
    lit "as";
    lit "de";
    lit "em";
    lit "ha";
    lit "pm";
    lit " ";
    lit "'";
    lit "+";
    lit ",";
    lit "-";
    lit ".";
    lit "/";
    lit ":";
    lit ";";
    lit "@";
    lit "[";
    lit "]";
    lit "e";
    lit "h";
    lit "m";
    lit "s";
    lit "z";
    lit "|"] |}.
Definition loc_pt_ST : locale := merge loc_pt own_pt_ST.

(** pt.go:537-570 *)
Definition own_pt_TL : locale := Eval vm_compute in
  {| ld_name := lit "pt-TL"; ld_order := lit "DMY"; ld_nospacing := false; ld_splitter := 0;
    ld_charset := runes (lit "");
    ld_abbr := [];
    ld_simpl := [];
    ld_trans := [(lit "da manha", [lit "am"]);
    (lit "da tarde", [lit "pm"]);
    (lit "manha", [lit "am"]);
    (lit "tarde", [lit "pm"])];
    ld_reltype := [];
    ld_relrx := [(rx "(?i)dentro de (\d+[.,]?\d*) segundos", lit "in $1 second");
    (rx "(?i)dentro de (\d+[.,]?\d*) minutos", lit "in $1 minute");
    (rx "(?i)dentro de (\d+[.,]?\d*) segundo", lit "in $1 second");
    (rx "(?i)dentro de (\d+[.,]?\d*) semanas", lit "in $1 week");
    (rx "(?i)dentro de (\d+[.,]?\d*) minuto", lit "in $1 minute");
    (rx "(?i)dentro de (\d+[.,]?\d*) semana", lit "in $1 week");
    (rx "(?i)dentro de (\d+[.,]?\d*) horas", lit "in $1 hour");
    (rx "(?i)dentro de (\d+[.,]?\d*) meses", lit "in $1 month");
    (rx "(?i)dentro de (\d+[.,]?\d*) anos", lit "in $1 year");
    (rx "(?i)dentro de (\d+[.,]?\d*) dias", lit "in $1 day");
    (rx "(?i)dentro de (\d+[.,]?\d*) hora", lit "in $1 hour");
    (rx "(?i)dentro de (\d+[.,]?\d*) ano", lit "in $1 year");
    (rx "(?i)dentro de (\d+[.,]?\d*) dia", lit "in $1 day");
    (rx "(?i)dentro de (\d+[.,]?\d*) mes", lit "in $1 month");
    (rx "(?i)dentro de (\d+[.,]?\d*) min", lit "in $1 minute");
    (rx "(?i)dentro de (\d+[.,]?\d*) sem", lit "in $1 week");
    (rx "(?i)dentro de (\d+[.,]?\d*) h", lit "in $1 hour");
    (rx "(?i)dentro de (\d+[.,]?\d*) s", lit "in $1 second");
    (rx "(?i)ha (\d+[.,]?\d*) s", lit "$1 second ago")];
    ld_rx := Some (rx "(?i)(\A|[^\pL\pM\d]|_)(dentro de \d+[.,]?\d* segundos|dentro de \d+[.,]?\d* minutos|dentro de \d+[.,]?\d* segundo|dentro de \d+[.,]?\d* semanas|dentro de \d+[.,]?\d* minuto|dentro de \d+[.,]?\d* semana|dentro de \d+[.,]?\d* horas|dentro de \d+[.,]?\d* meses|dentro de \d+[.,]?\d* anos|dentro de \d+[.,]?\d* dias|dentro de \d+[.,]?\d* hora|dentro de \d+[.,]?\d* ano|dentro de \d+[.,]?\d* dia|dentro de \d+[.,]?\d* mes|dentro de \d+[.,]?\d* min|dentro de \d+[.,]?\d* sem|dentro de \d+[.,]?\d* h|dentro de \d+[.,]?\d* s|em \d+[.,]?\d* segundos|ha \d+[.,]?\d* segundos|em \d+[.,]?\d* minutos|em \d+[.,]?\d* segundo|em \d+[.,]?\d* semanas|ha \d+[.,]?\d* minutos|ha \d+[.,]?\d* segundo|ha \d+[.,]?\d* semanas|em \d+[.,]?\d* minuto|em \d+[.,]?\d* semana|ha \d+[.,]?\d* minuto|ha \d+[.,]?\d* semana|em \d+[.,]?\d* horas|em \d+[.,]?\d* meses|ha \d+[.,]?\d* horas|ha \d+[.,]?\d* meses|em \d+[.,]?\d* anos|em \d+[.,]?\d* dias|em \d+[.,]?\d* hora|em \d+[.,]?\d* mins|em \d+[.,]?\d* segs|ha \d+[.,]?\d* anos|ha \d+[.,]?\d* dias|ha \d+[.,]?\d* hora|ha \d+[.,]?\d* mins|em \d+[.,]?\d* ano|em \d+[.,]?\d* dia|em \d+[.,]?\d* mes|em \d+[.,]?\d* min|em \d+[.,]?\d* seg|em \d+[.,]?\d* sem|ha \d+[.,]?\d* ano|ha \d+[.,]?\d* dia|ha \d+[.,]?\d* mes|ha \d+[.,]?\d* min|ha \d+[.,]?\d* seg|ha \d+[.,]?\d* sem|em \d+[.,]?\d* h|ha \d+[.,]?\d* h|ha \d+[.,]?\d* s)(\z|[^\pL\pM\d]|_)");
    ld_rx_exact := Some (rx "(?i)^(dentro de \d+[.,]?\d* segundos|dentro de \d+[.,]?\d* minutos|dentro de \d+[.,]?\d* segundo|dentro de \d+[.,]?\d* semanas|dentro de \d+[.,]?\d* minuto|dentro de \d+[.,]?\d* semana|dentro de \d+[.,]?\d* horas|dentro de \d+[.,]?\d* meses|dentro de \d+[.,]?\d* anos|dentro de \d+[.,]?\d* dias|dentro de \d+[.,]?\d* hora|dentro de \d+[.,]?\d* ano|dentro de \d+[.,]?\d* dia|dentro de \d+[.,]?\d* mes|dentro de \d+[.,]?\d* min|dentro de \d+[.,]?\d* sem|dentro de \d+[.,]?\d* h|dentro de \d+[.,]?\d* s|em \d+[.,]?\d* segundos|ha \d+[.,]?\d* segundos|em \d+[.,]?\d* minutos|em \d+[.,]?\d* segundo|em \d+[.,]?\d* semanas|ha \d+[.,]?\d* minutos|ha \d+[.,]?\d* segundo|ha \d+[.,]?\d* semanas|em \d+[.,]?\d* minuto|em \d+[.,]?\d* semana|ha \d+[.,]?\d* minuto|ha \d+[.,]?\d* semana|em \d+[.,]?\d* horas|em \d+[.,]?\d* meses|ha \d+[.,]?\d* horas|ha \d+[.,]?\d* meses|em \d+[.,]?\d* anos|em \d+[.,]?\d* dias|em \d+[.,]?\d* hora|em \d+[.,]?\d* mins|em \d+[.,]?\d* segs|ha \d+[.,]?\d* anos|ha \d+[.,]?\d* dias|ha \d+[.,]?\d* hora|ha \d+[.,]?\d* mins|em \d+[.,]?\d* ano|em \d+[.,]?\d* dia|em \d+[.,]?\d* mes|em \d+[.,]?\d* min|em \d+[.,]?\d* seg|em \d+[.,]?\d* sem|ha \d+[.,]?\d* ano|ha \d+[.,]?\d* dia|ha \d+[.,]?\d* mes|ha \d+[.,]?\d* min|ha \d+[.,]?\d* seg|ha \d+[.,]?\d* sem|em \d+[.,]?\d* h|ha \d+[.,]?\d* h|ha \d+[.,]?\d* s)$");
    ld_known := [lit "proxima semana";
    lit "semana passada";
    lit "segunda-feira";
    lit "quarta-feira";
    lit "quinta-feira";
    lit "ano passado";
    lit "esta semana";
    lit "este minuto";
    lit "mes passado";
    lit "proximo ano";
    lit "proximo mes";
    lit "sexta-feira";
    lit "terca-feira";
    lit "anteontem";
    lit "esta hora";
    lit "fevereiro";
    lit "septembro";
    lit "da manha";
    lit "da tarde";
    lit "dezembro";
    lit "este ano";
    lit "este mes";
    lit "novembro";
    lit "segundos";
    lit "setembro";
    lit "domingo";
    lit "janeiro";
    lit "minutos";
    lit "outubro";
    lit "segunda";
    lit "segundo";
    lit "semanas";
    lit "agosto";
    lit "amanha";
    lit "minuto";
    lit "quarta";
    lit "quinta";
    lit "sabado";
    lit "semana";
    lit "abril";
    lit "agora";
    lit "atras";
    lit "cerca";
    lit "horas";
    lit "julho";
    lit "junho";
    lit "manha";
    lit "marco";
    lit "meses";
    lit "ontem";
    lit "sexta";
    lit "tarde";
    lit "terca";
    lit "anos";
    lit "dias";
    lit "hoje";
    lit "hora";
    lit "maio";
    lit "abr";
    lit "ago";
    lit "ano";
    lit "dez";
    lit "dia";
    lit "dom";
    lit "fev";
    lit "gmt";
    lit "jan";
    lit "jul";
    lit "jun";
    lit "mai";
    lit "mar";
    lit "mes";
    lit "min";
    lit "nov";
    lit "out";
    lit "qua";
    lit "qui";
    lit "sab";
    lit "seg";
    lit "sem";
    lit "set";
    lit "sex";
    lit "ter";
    lit "utc";
    lit "am";
    lit "as";
    lit "de";
    lit "em";
    lit "ha";
    lit "pm";
    lit " ";
    lit "'";
    lit "+";
    lit ",";
    lit "-";
    lit ".";
    lit "/";
    lit ":";
    lit ";";
    lit "@";
    lit "[";
    lit "]";
    lit "e";
    lit "h";
    lit "m";
    lit "s";
    lit "z";
    lit "|"] |}.
Definition loc_pt_TL : locale := merge loc_pt own_pt_TL.

(** qu.go:12-99 *)
Definition loc_qu : locale := Eval vm_compute in
  {| ld_name := lit "qu"; ld_order := lit "DMY"; ld_nospacing := false; ld_splitter := 0;
    ld_charset := runes (lit "bcdeghijklnorstuvwxyzáé");
    ld_abbr := [];
    ld_simpl := [];
    ld_trans := [(lit "pauqar waray", [lit "march"]);
    (lit "qhapaq sitwa", [lit "august"]);
    (lit "hatun puquy", [lit "february"]);
    (lit "kapaq raymi", [lit "december"]);
    (lit "qulla puquy", [lit "january"]);
    (lit "anta sitwa", [lit "july"]);
    (lit "inti raymi", [lit "june"]);
    (lit "ayamarq'a", [lit "november"]);
    (lit "miercoles", [lit "wednesday"]);
    (lit "uma raymi", [lit "september"]);
    (lit "kantaray", [lit "october"]);
    (lit "aymuray", [lit "may"]);
    (lit "domingo", [lit "sunday"]);
    (lit "viernes", [lit "friday"]);
    (lit "ayriwa", [lit "april"]);
    (lit "jueves", [lit "thursday"]);
    (lit "martes", [lit "tuesday"]);
    (lit "minute", [lit "minute"]);
    (lit "sabado", [lit "saturday"]);
    (lit "second", [lit "second"]);
    (lit "lunes", [lit "monday"]);
    (lit "month", [lit "month"]);
    (lit "hour", [lit "hour"]);
    (lit "week", [lit "week"]);
    (lit "year", [lit "year"]);
    (lit "ant", [lit "july"]);
    (lit "aya", [lit "november"]);
    (lit "aym", [lit "may"]);
    (lit "ayr", [lit "april"]);
    (lit "day", [lit "day"]);
    (lit "dom", [lit "sunday"]);
    (lit "gmt", [lit "gmt"]);
    (lit "hat", [lit "february"]);
    (lit "int", [lit "june"]);
    (lit "jue", [lit "thursday"]);
    (lit "kan", [lit "october"]);
    (lit "kap", [lit "december"]);
    (lit "lun", [lit "monday"]);
    (lit "mar", [lit "tuesday"]);
    (lit "mie", [lit "wednesday"]);
    (lit "pau", [lit "march"]);
    (lit "qha", [lit "august"]);
    (lit "qul", [lit "january"]);
    (lit "sab", [lit "saturday"]);
    (lit "uma", [lit "september"]);
    (lit "utc", [lit "utc"]);
    (lit "vie", [lit "friday"]);
    (lit "am", [lit "am"]);
    (lit "pm", [lit "pm"]);
    (lit " ", [lit " "]);
    (lit "'", [lit ""]);
    (lit "+", [lit "+"]);
    (lit ",", [lit ""]);
    (lit "-", [lit "-"]);
    (lit ".", [lit "."]);
    (lit "/", [lit "/"]);
    (lit ":", [lit ":"]);
    (lit ";", [lit ""]);
    (lit "@", [lit ""]);
    (lit "[", [lit ""]);
    (lit "]", [lit ""]);
    (lit "z", [lit "z"]);
    (lit "|", [lit ""])];
    ld_reltype := [(lit "this minute", lit "0 minute ago");
    (lit "last month", lit "1 month ago");
    (lit "next month", lit "in 1 month");
    (lit "this month", lit "0 month ago");
    (lit "last week", lit "1 week ago");
    (lit "last year", lit "1 year ago");
    (lit "next week", lit "in 1 week");
    (lit "next year", lit "in 1 year");
    (lit "this hour", lit "0 hour ago");
    (lit "this week", lit "0 week ago");
    (lit "this year", lit "0 year ago");
    (lit "yesterday", lit "1 day ago");
    (lit "tomorrow", lit "in 1 day");
    (lit "today", lit "0 day ago");
    (lit "now", lit "0 second ago")];
    ld_relrx := [];
    ld_rx := None;
    ld_rx_exact := None;
    ld_known := [lit "pauqar waray";
    lit "qhapaq sitwa";
    lit "hatun puquy";
    lit "kapaq raymi";
    lit "qulla puquy";
    lit "this minute";
    lit "anta sitwa";
    lit "inti raymi";
    lit "last month";
    lit "next month";
    lit "this month";
    lit "ayamarq'a";
    lit "last week";
    lit "last year";
    lit "miercoles";
    lit "next week";
    lit "next year";
    lit "this hour";
    lit "this week";
    lit "this year";
    lit "uma raymi";
    lit "yesterday";
    lit "kantaray";
    lit "tomorrow";
    lit "aymuray";
    lit "domingo";
    lit "viernes";
    lit "ayriwa";
    lit "jueves";
    lit "martes";
    lit "minute";
    lit "sabado";
    lit "second";
    lit "lunes";
    lit "month";
    lit "today";
    lit "hour";
    lit "week";
    lit "year";
    lit "ant";
    lit "aya";
    lit "aym";
    lit "ayr";
    lit "day";
    lit "dom";
    lit "gmt";
    lit "hat";
    lit "int";
    lit "jue";
    lit "kan";
    lit "kap";
    lit "lun";
    lit "mar";
    lit "mie";
    lit "now";
    lit "pau";
    lit "qha";
    lit "qul";
    lit "sab";
    lit "uma";
    lit "utc";
    lit "vie";
    lit "am";
    lit "pm";
    lit " ";
    lit "'";
    lit "+";
    lit ",";
    lit "-";
    lit ".";
    lit "/";
    lit ":";
    lit ";";
    lit "@";
    lit "[";
    lit "]";
    lit "z";
    lit "|"] |}.

(** qu.go:101-104 *)
Definition own_qu_BO : locale := Eval vm_compute in
  {| ld_name := lit "qu-BO"; ld_order := lit "DMY"; ld_nospacing := false; ld_splitter := 0;
    ld_charset := runes (lit "");
    ld_abbr := [];
    ld_simpl := [];
    ld_trans := [];
    ld_reltype := [];
    ld_relrx := [];
    ld_rx := None;
    ld_rx_exact := None;
    ld_known := [] |}.
Definition loc_qu_BO : locale := merge loc_qu own_qu_BO.

(** qu.go:106-109 *)
Definition own_qu_EC : locale := Eval vm_compute in
  {| ld_name := lit "qu-EC"; ld_order := lit "DMY"; ld_nospacing := false; ld_splitter := 0;
    ld_charset := runes (lit "");
    ld_abbr := [];
    ld_simpl := [];
    ld_trans := [];
    ld_reltype := [];
    ld_relrx := [];
    ld_rx := None;
    ld_rx_exact := None;
    ld_known := [] |}.
Definition loc_qu_EC : locale := merge loc_qu own_qu_EC.

(** rm.go:10-94 *)
Definition loc_rm : locale := Eval vm_compute in
  {| ld_name := lit "rm"; ld_order := lit "DMY"; ld_nospacing := false; ld_splitter := 0;
    ld_charset := runes (lit "bcdefghiklnorstuvwxyz");
    ld_abbr := [];
    ld_simpl := [];
    ld_trans := [(lit "glindesdi", [lit "monday"]);
    (lit "settember", [lit "september"]);
    (lit "zercladur", [lit "june"]);
    (lit "december", [lit "december"]);
    (lit "dumengia", [lit "sunday"]);
    (lit "november", [lit "november"]);
    (lit "venderdi", [lit "friday"]);
    (lit "fanadur", [lit "july"]);
    (lit "gievgia", [lit "thursday"]);
    (lit "mesemna", [lit "wednesday"]);
    (lit "october", [lit "october"]);
    (lit "schaner", [lit "january"]);
    (lit "secunda", [lit "second"]);
    (lit "avrigl", [lit "april"]);
    (lit "favrer", [lit "february"]);
    (lit "minuta", [lit "minute"]);
    (lit "avust", [lit "august"]);
    (lit "mardi", [lit "tuesday"]);
    (lit "schan", [lit "january"]);
    (lit "sonda", [lit "saturday"]);
    (lit "zercl", [lit "june"]);
    (lit "emna", [lit "week"]);
    (lit "favr", [lit "february"]);
    (lit "mais", [lit "month"]);
    (lit "mars", [lit "march"]);
    (lit "matg", [lit "may"]);
    (lit "sett", [lit "september"]);
    (lit "avr", [lit "april"]);
    (lit "dec", [lit "december"]);
    (lit "fan", [lit "july"]);
    (lit "gie", [lit "thursday"]);
    (lit "gli", [lit "monday"]);
    (lit "gmt", [lit "gmt"]);
    (lit "nov", [lit "november"]);
    (lit "oct", [lit "october"]);
    (lit "onn", [lit "year"]);
    (lit "tag", [lit "day"]);
    (lit "ura", [lit "hour"]);
    (lit "utc", [lit "utc"]);
    (lit "am", [lit "am"]);
    (lit "du", [lit "sunday"]);
    (lit "ma", [lit "tuesday"]);
    (lit "me", [lit "wednesday"]);
    (lit "pm", [lit "pm"]);
    (lit "so", [lit "saturday"]);
    (lit "ve", [lit "friday"]);
    (lit " ", [lit " "]);
    (lit "'", [lit ""]);
    (lit "+", [lit "+"]);
    (lit ",", [lit ""]);
    (lit "-", [lit "-"]);
    (lit ".", [lit "."]);
    (lit "/", [lit "/"]);
    (lit ":", [lit ":"]);
    (lit ";", [lit ""]);
    (lit "@", [lit ""]);
    (lit "[", [lit ""]);
    (lit "]", [lit ""]);
    (lit "z", [lit "z"]);
    (lit "|", [lit ""])];
    ld_reltype := [(lit "this minute", lit "0 minute ago");
    (lit "last month", lit "1 month ago");
    (lit "next month", lit "in 1 month");
    (lit "this month", lit "0 month ago");
    (lit "last week", lit "1 week ago");
    (lit "last year", lit "1 year ago");
    (lit "next week", lit "in 1 week");
    (lit "next year", lit "in 1 year");
    (lit "this hour", lit "0 hour ago");
    (lit "this week", lit "0 week ago");
    (lit "this year", lit "0 year ago");
    (lit "damaun", lit "in 1 day");
    (lit "ier", lit "1 day ago");
    (lit "now", lit "0 second ago");
    (lit "oz", lit "0 day ago")];
    ld_relrx := [];
    ld_rx := None;
    ld_rx_exact := None;
    ld_known := [lit "this minute";
    lit "last month";
    lit "next month";
    lit "this month";
    lit "glindesdi";
    lit "last week";
    lit "last year";
    lit "next week";
    lit "next year";
    lit "settember";
    lit "this hour";
    lit "this week";
    lit "this year";
    lit "zercladur";
    lit "december";
    lit "dumengia";
    lit "november";
    lit "venderdi";
    lit "fanadur";
    lit "gievgia";
    lit "mesemna";
    lit "october";
    lit "schaner";
    lit "secunda";
    lit "avrigl";
    lit "damaun";
    lit "favrer";
    lit "minuta";
    lit "avust";
    lit "mardi";
    lit "schan";
    lit "sonda";
    lit "zercl";
    lit "emna";
    lit "favr";
    lit "mais";
    lit "mars";
    lit "matg";
    lit "sett";
    lit "avr";
    lit "dec";
    lit "fan";
    lit "gie";
    lit "gli";
    lit "gmt";
    lit "ier";
    lit "nov";
    lit "now";
    lit "oct";
    lit "onn";
    lit "tag";
    lit "ura";
    lit "utc";
    lit "am";
    lit "du";
    lit "ma";
    lit "me";
    lit "oz";
    lit "pm";
    lit "so";
    lit "ve";
    lit " ";
    lit "'";
    lit "+";
    lit ",";
    lit "-";
    lit ".";
    lit "/";
    lit ":";
    lit ";";
    lit "@";
    lit "[";
    lit "]";
    lit "z";
    lit "|"] |}.

(** rn.go:10-98 *)
Definition loc_rn : locale := Eval vm_compute in
  {| ld_name := lit "rn"; ld_order := lit "DMY"; ld_nospacing := false; ld_splitter := 0;
    ld_charset := runes (lit ",bcdeghijklnorstuwxyz");
    ld_abbr := [];
    ld_simpl := [];
    ld_trans := [(lit "ku wa gatandatu", [lit "saturday"]);
    (lit "indwi, iyinga", [lit "week"]);
    (lit "ku wa gatanu", [lit "friday"]);
    (lit "ku wa gatatu", [lit "wednesday"]);
    (lit "ku wa kabiri", [lit "tuesday"]);
    (lit "ku wa mbere", [lit "monday"]);
    (lit "ku w'indwi", [lit "sunday"]);
    (lit "ku wa kane", [lit "thursday"]);
    (lit "nyandagaro", [lit "august"]);
    (lit "ndamukiza", [lit "april"]);
    (lit "ntwarante", [lit "march"]);
    (lit "gitugutu", [lit "october"]);
    (lit "isegonda", [lit "second"]);
    (lit "kigarama", [lit "december"]);
    (lit "mukakaro", [lit "july"]);
    (lit "munyonyo", [lit "november"]);
    (lit "nyakanga", [lit "september"]);
    (lit "ruhuhuma", [lit "february"]);
    (lit "ruheshi", [lit "june"]);
    (lit "umunota", [lit "minute"]);
    (lit "rusama", [lit "may"]);
    (lit "ukwezi", [lit "month"]);
    (lit "umwaka", [lit "year"]);
    (lit "isaha", [lit "hour"]);
    (lit "nzero", [lit "january"]);
    (lit "umusi", [lit "day"]);
    (lit "gas", [lit "february"]);
    (lit "gic", [lit "may"]);
    (lit "gmt", [lit "gmt"]);
    (lit "gnd", [lit "saturday"]);
    (lit "gnu", [lit "friday"]);
    (lit "gtu", [lit "wednesday"]);
    (lit "kab", [lit "tuesday"]);
    (lit "kam", [lit "june"]);
    (lit "kan", [lit "august"; lit "thursday"]);
    (lit "mat", [lit "april"]);
    (lit "mbe", [lit "monday"]);
    (lit "mut", [lit "january"]);
    (lit "nya", [lit "july"]);
    (lit "nze", [lit "september"]);
    (lit "ugu", [lit "november"]);
    (lit "uku", [lit "december"]);
    (lit "ukw", [lit "october"]);
    (lit "utc", [lit "utc"]);
    (lit "wer", [lit "march"]);
    (lit "zmu", [lit "am"]);
    (lit "zmw", [lit "pm"]);
    (lit "am", [lit "am"]);
    (lit "cu", [lit "sunday"]);
    (lit "pm", [lit "pm"]);
    (lit " ", [lit " "]);
    (lit "'", [lit ""]);
    (lit "+", [lit "+"]);
    (lit ",", [lit ""]);
    (lit "-", [lit "-"]);
    (lit ".", [lit "."]);
    (lit "/", [lit "/"]);
    (lit ":", [lit ":"]);
    (lit ";", [lit ""]);
    (lit "@", [lit ""]);
    (lit "[", [lit ""]);
    (lit "]", [lit ""]);
    (lit "z", [lit "z"]);
    (lit "|", [lit ""])];
    ld_reltype := [(lit "ejo (haheze)", lit "1 day ago");
    (lit "ejo (hazoza)", lit "in 1 day");
    (lit "this minute", lit "0 minute ago");
    (lit "last month", lit "1 month ago");
    (lit "next month", lit "in 1 month");
    (lit "this month", lit "0 month ago");
    (lit "last week", lit "1 week ago");
    (lit "last year", lit "1 year ago");
    (lit "next week", lit "in 1 week");
    (lit "next year", lit "in 1 year");
    (lit "this hour", lit "0 hour ago");
    (lit "this week", lit "0 week ago");
    (lit "this year", lit "0 year ago");
    (lit "uyu musi", lit "0 day ago");
    (lit "now", lit "0 second ago")];
    ld_relrx := [];
    ld_rx := None;
    ld_rx_exact := None;
    ld_known := [lit "ku wa gatandatu";
    lit "indwi, iyinga";
    lit "ejo (haheze)";
    lit "ejo (hazoza)";
    lit "ku wa gatanu";
    lit "ku wa gatatu";
    lit "ku wa kabiri";
    lit "ku wa mbere";
    lit "this minute";
    lit "ku w'indwi";
    lit "ku wa kane";
    lit "last month";
    lit "next month";
    lit "nyandagaro";
    lit "this month";
    lit "last week";
    lit "last year";
    lit "ndamukiza";
    lit "next week";
    lit "next year";
    lit "ntwarante";
    lit "this hour";
    lit "this week";
    lit "this year";
    lit "gitugutu";
    lit "isegonda";
    lit "kigarama";
    lit "mukakaro";
    lit "munyonyo";
    lit "nyakanga";
    lit "ruhuhuma";
    lit "uyu musi";
    lit "ruheshi";
    lit "umunota";
    lit "rusama";
    lit "ukwezi";
    lit "umwaka";
    lit "isaha";
    lit "nzero";
    lit "umusi";
    lit "gas";
    lit "gic";
    lit "gmt";
    lit "gnd";
    lit "gnu";
    lit "gtu";
    lit "kab";
    lit "kam";
    lit "kan";
    lit "mat";
    lit "mbe";
    lit "mut";
    lit "now";
    lit "nya";
    lit "nze";
    lit "ugu";
    lit "uku";
    lit "ukw";
    lit "utc";
    lit "wer";
    lit "zmu";
    lit "zmw";
    lit "am";
    lit "cu";
    lit "pm";
    lit " ";
    lit "'";
    lit "+";
    lit ",";
    lit "-";
    lit ".";
    lit "/";
    lit ":";
    lit ";";
    lit "@";
    lit "[";
    lit "]";
    lit "z";
    lit "|"] |}.

(** all patterns above are accepted by the syntax parser *)
Example patterns_ok : forallb (fun s => match parse_regex s with Some _ => true | None => false end)
  [lit "(?i)(\A|[^\pL\pM\d]|_)(\d+[.,]?\d* miesiaca temu|\d+[.,]?\d* tygodnia temu|\d+[.,]?\d* godzine temu|\d+[.,]?\d* godziny temu|\d+[.,]?\d* miesiac temu|\d+[.,]?\d* sekunde temu|\d+[.,]?\d* sekundy temu|\d+[.,]?\d* tydzien temu|\d+[.,]?\d* minute temu|\d+[.,]?\d* minuty temu|za \d+[.,]?\d* miesiaca|za \d+[.,]?\d* tygodnia|\d+[.,]?\d* dzien temu|za \d+[.,]?\d* godzine|za \d+[.,]?\d* godziny|za \d+[.,]?\d* miesiac|za \d+[.,]?\d* sekunde|za \d+[.,]?\d* sekundy|za \d+[.,]?\d* tydzien|\d+[.,]?\d* dnia temu|\d+[.,]?\d* godz temu|\d+[.,]?\d* mies temu|\d+[.,]?\d* roku temu|\d+[.,]?\d* tydz temu|za \d+[.,]?\d* minute|za \d+[.,]?\d* minuty|\d+[.,]?\d* min temu|\d+[.,]?\d* rok temu|\d+[.,]?\d* sek temu|\d+[.,]?\d* tyg temu|za \d+[.,]?\d* dzien|za \d+[.,]?\d* dnia|za \d+[.,]?\d* godz|za \d+[.,]?\d* mies|za \d+[.,]?\d* roku|za \d+[.,]?\d* tydz|\d+[.,]?\d* g temu|\d+[.,]?\d* s temu|za \d+[.,]?\d* min|za \d+[.,]?\d* rok|za \d+[.,]?\d* sek|za \d+[.,]?\d* tyg|–\d+[.,]?\d* mies|za \d+[.,]?\d* g|za \d+[.,]?\d* s)(\z|[^\pL\pM\d]|_)";
  lit "(?i)(\A|[^\pL\pM\d]|_)(\d+[.,]?\d* ਮਹੀਨਾ ਪਹਿਲਾ|\d+[.,]?\d* ਮਹੀਨ ਪਹਿਲਾ|\d+[.,]?\d* ਮਹੀਨਿਆ ਵਿਚ|\d+[.,]?\d* ਸਕਿਟ ਪਹਿਲਾ|\d+[.,]?\d* ਹਫਤਾ ਪਹਿਲਾ|\d+[.,]?\d* ਘਟਾ ਪਹਿਲਾ|\d+[.,]?\d* ਦਿਨ ਪਹਿਲਾ|\d+[.,]?\d* ਮਿਟ ਪਹਿਲਾ|\d+[.,]?\d* ਸਕਿਟਾ ਵਿਚ|\d+[.,]?\d* ਸਾਲ ਪਹਿਲਾ|\d+[.,]?\d* ਹਫਤ ਪਹਿਲਾ|\d+[.,]?\d* ਹਫਤਿਆ ਵਿਚ|\d+[.,]?\d* ਘਟ ਪਹਿਲਾ|\d+[.,]?\d* ਘਟਿਆ ਵਿਚ|\d+[.,]?\d* ਦਿਨਾ ਵਿਚ|\d+[.,]?\d* ਮਹੀਨ ਵਿਚ|\d+[.,]?\d* ਮਿਟਾ ਵਿਚ|\d+[.,]?\d* ਸਕਿਟ ਵਿਚ|\d+[.,]?\d* ਸਾਲਾ ਵਿਚ|\d+[.,]?\d* ਦਿਨ ਵਿਚ|\d+[.,]?\d* ਮਿਟ ਵਿਚ|\d+[.,]?\d* ਸਾਲ ਵਿਚ|\d+[.,]?\d* ਹਫਤ ਵਿਚ|\d+[.,]?\d* ਘਟ ਵਿਚ)(\z|[^\pL\pM\d]|_)";
  lit "(?i)(\A|[^\pL\pM\d]|_)(dentro de \d+[.,]?\d* segundos|dentro de \d+[.,]?\d* minutos|dentro de \d+[.,]?\d* segundo|dentro de \d+[.,]?\d* semanas|dentro de \d+[.,]?\d* minuto|dentro de \d+[.,]?\d* semana|dentro de \d+[.,]?\d* horas|dentro de \d+[.,]?\d* meses|dentro de \d+[.,]?\d* anos|dentro de \d+[.,]?\d* dias|dentro de \d+[.,]?\d* hora|dentro de \d+[.,]?\d* ano|dentro de \d+[.,]?\d* dia|dentro de \d+[.,]?\d* mes|dentro de \d+[.,]?\d* min|dentro de \d+[.,]?\d* sem|dentro de \d+[.,]?\d* h|dentro de \d+[.,]?\d* s|em \d+[.,]?\d* segundos|ha \d+[.,]?\d* segundos|em \d+[.,]?\d* minutos|em \d+[.,]?\d* segundo|em \d+[.,]?\d* semanas|ha \d+[.,]?\d* minutos|ha \d+[.,]?\d* segundo|ha \d+[.,]?\d* semanas|em \d+[.,]?\d* minuto|em \d+[.,]?\d* semana|ha \d+[.,]?\d* minuto|ha \d+[.,]?\d* semana|em \d+[.,]?\d* horas|em \d+[.,]?\d* meses|ha \d+[.,]?\d* horas|ha \d+[.,]?\d* meses|em \d+[.,]?\d* anos|em \d+[.,]?\d* dias|em \d+[.,]?\d* hora|em \d+[.,]?\d* mins|em \d+[.,]?\d* segs|ha \d+[.,]?\d* anos|ha \d+[.,]?\d* dias|ha \d+[.,]?\d* hora|ha \d+[.,]?\d* mins|em \d+[.,]?\d* ano|em \d+[.,]?\d* dia|em \d+[.,]?\d* mes|em \d+[.,]?\d* min|em \d+[.,]?\d* seg|em \d+[.,]?\d* sem|ha \d+[.,]?\d* ano|ha \d+[.,]?\d* dia|ha \d+[.,]?\d* mes|ha \d+[.,]?\d* min|ha \d+[.,]?\d* seg|ha \d+[.,]?\d* sem|em \d+[.,]?\d* h|ha \d+[.,]?\d* h|ha \d+[.,]?\d* s)(\z|[^\pL\pM\d]|_)";
  lit "(?i)(\A|[^\pL\pM\d]|_)(em \d+[.,]?\d* segundos|ha \d+[.,]?\d* segundos|em \d+[.,]?\d* minutos|em \d+[.,]?\d* segundo|em \d+[.,]?\d* semanas|ha \d+[.,]?\d* minutos|ha \d+[.,]?\d* segundo|ha \d+[.,]?\d* semanas|em \d+[.,]?\d* minuto|em \d+[.,]?\d* semana|ha \d+[.,]?\d* minuto|ha \d+[.,]?\d* semana|em \d+[.,]?\d* horas|em \d+[.,]?\d* meses|ha \d+[.,]?\d* horas|ha \d+[.,]?\d* meses|em \d+[.,]?\d* anos|em \d+[.,]?\d* dias|em \d+[.,]?\d* hora|em \d+[.,]?\d* mins|em \d+[.,]?\d* segs|ha \d+[.,]?\d* anos|ha \d+[.,]?\d* dias|ha \d+[.,]?\d* hora|ha \d+[.,]?\d* mins|em \d+[.,]?\d* ano|em \d+[.,]?\d* dia|em \d+[.,]?\d* mes|em \d+[.,]?\d* min|em \d+[.,]?\d* seg|em \d+[.,]?\d* sem|ha \d+[.,]?\d* ano|ha \d+[.,]?\d* dia|ha \d+[.,]?\d* mes|ha \d+[.,]?\d* min|ha \d+[.,]?\d* seg|ha \d+[.,]?\d* sem|em \d+[.,]?\d* h|ha \d+[.,]?\d* h)(\z|[^\pL\pM\d]|_)";
  lit "(?i)(\A|[^\pL\pM\d_])alguns segundos(\z|[^\pL\pM\d_])";
  lit "(?i)(\A|[^\pL\pM\d_])dzis(\z|[^\pL\pM\d_])";
  lit "(?i)(\A|[^\pL\pM\d_])dzisiaj(\z|[^\pL\pM\d_])";
  lit "(?i)(\A|[^\pL\pM\d_])jutro(\z|[^\pL\pM\d_])";
  lit "(?i)(\A|[^\pL\pM\d_])onegdaj(\z|[^\pL\pM\d_])";
  lit "(?i)(\A|[^\pL\pM\d_])pojutrze(\z|[^\pL\pM\d_])";
  lit "(?i)(\A|[^\pL\pM\d_])przedwczoraj(\z|[^\pL\pM\d_])";
  lit "(?i)(\A|[^\pL\pM\d_])um(\z|[^\pL\pM\d_])";
  lit "(?i)(\A|[^\pL\pM\d_])uma(\z|[^\pL\pM\d_])";
  lit "(?i)(\d+[.,]?\d*) dnia temu";
  lit "(?i)(\d+[.,]?\d*) dzien temu";
  lit "(?i)(\d+[.,]?\d*) g temu";
  lit "(?i)(\d+[.,]?\d*) godz temu";
  lit "(?i)(\d+[.,]?\d*) godzine temu";
  lit "(?i)(\d+[.,]?\d*) godziny temu";
  lit "(?i)(\d+[.,]?\d*) mies temu";
  lit "(?i)(\d+[.,]?\d*) miesiac temu";
  lit "(?i)(\d+[.,]?\d*) miesiaca temu";
  lit "(?i)(\d+[.,]?\d*) min temu";
  lit "(?i)(\d+[.,]?\d*) minute temu";
  lit "(?i)(\d+[.,]?\d*) minuty temu";
  lit "(?i)(\d+[.,]?\d*) rok temu";
  lit "(?i)(\d+[.,]?\d*) roku temu";
  lit "(?i)(\d+[.,]?\d*) s temu";
  lit "(?i)(\d+[.,]?\d*) sek temu";
  lit "(?i)(\d+[.,]?\d*) sekunde temu";
  lit "(?i)(\d+[.,]?\d*) sekundy temu";
  lit "(?i)(\d+[.,]?\d*) tydz temu";
  lit "(?i)(\d+[.,]?\d*) tydzien temu";
  lit "(?i)(\d+[.,]?\d*) tyg temu";
  lit "(?i)(\d+[.,]?\d*) tygodnia temu";
  lit "(?i)(\d+[.,]?\d*) ਘਟ ਪਹਿਲਾ";
  lit "(?i)(\d+[.,]?\d*) ਘਟ ਵਿਚ";
  lit "(?i)(\d+[.,]?\d*) ਘਟਾ ਪਹਿਲਾ";
  lit "(?i)(\d+[.,]?\d*) ਘਟਿਆ ਵਿਚ";
  lit "(?i)(\d+[.,]?\d*) ਦਿਨ ਪਹਿਲਾ";
  lit "(?i)(\d+[.,]?\d*) ਦਿਨ ਵਿਚ";
  lit "(?i)(\d+[.,]?\d*) ਦਿਨਾ ਵਿਚ";
  lit "(?i)(\d+[.,]?\d*) ਮਹੀਨ ਪਹਿਲਾ";
  lit "(?i)(\d+[.,]?\d*) ਮਹੀਨ ਵਿਚ";
  lit "(?i)(\d+[.,]?\d*) ਮਹੀਨਾ ਪਹਿਲਾ";
  lit "(?i)(\d+[.,]?\d*) ਮਹੀਨਿਆ ਵਿਚ";
  lit "(?i)(\d+[.,]?\d*) ਮਿਟ ਪਹਿਲਾ";
  lit "(?i)(\d+[.,]?\d*) ਮਿਟ ਵਿਚ";
  lit "(?i)(\d+[.,]?\d*) ਮਿਟਾ ਵਿਚ";
  lit "(?i)(\d+[.,]?\d*) ਸਕਿਟ ਪਹਿਲਾ";
  lit "(?i)(\d+[.,]?\d*) ਸਕਿਟ ਵਿਚ";
  lit "(?i)(\d+[.,]?\d*) ਸਕਿਟਾ ਵਿਚ";
  lit "(?i)(\d+[.,]?\d*) ਸਾਲ ਪਹਿਲਾ";
  lit "(?i)(\d+[.,]?\d*) ਸਾਲ ਵਿਚ";
  lit "(?i)(\d+[.,]?\d*) ਸਾਲਾ ਵਿਚ";
  lit "(?i)(\d+[.,]?\d*) ਹਫਤ ਪਹਿਲਾ";
  lit "(?i)(\d+[.,]?\d*) ਹਫਤ ਵਿਚ";
  lit "(?i)(\d+[.,]?\d*) ਹਫਤਾ ਪਹਿਲਾ";
  lit "(?i)(\d+[.,]?\d*) ਹਫਤਿਆ ਵਿਚ";
  lit "(?i)^(\d+[.,]?\d* miesiaca temu|\d+[.,]?\d* tygodnia temu|\d+[.,]?\d* godzine temu|\d+[.,]?\d* godziny temu|\d+[.,]?\d* miesiac temu|\d+[.,]?\d* sekunde temu|\d+[.,]?\d* sekundy temu|\d+[.,]?\d* tydzien temu|\d+[.,]?\d* minute temu|\d+[.,]?\d* minuty temu|za \d+[.,]?\d* miesiaca|za \d+[.,]?\d* tygodnia|\d+[.,]?\d* dzien temu|za \d+[.,]?\d* godzine|za \d+[.,]?\d* godziny|za \d+[.,]?\d* miesiac|za \d+[.,]?\d* sekunde|za \d+[.,]?\d* sekundy|za \d+[.,]?\d* tydzien|\d+[.,]?\d* dnia temu|\d+[.,]?\d* godz temu|\d+[.,]?\d* mies temu|\d+[.,]?\d* roku temu|\d+[.,]?\d* tydz temu|za \d+[.,]?\d* minute|za \d+[.,]?\d* minuty|\d+[.,]?\d* min temu|\d+[.,]?\d* rok temu|\d+[.,]?\d* sek temu|\d+[.,]?\d* tyg temu|za \d+[.,]?\d* dzien|za \d+[.,]?\d* dnia|za \d+[.,]?\d* godz|za \d+[.,]?\d* mies|za \d+[.,]?\d* roku|za \d+[.,]?\d* tydz|\d+[.,]?\d* g temu|\d+[.,]?\d* s temu|za \d+[.,]?\d* min|za \d+[.,]?\d* rok|za \d+[.,]?\d* sek|za \d+[.,]?\d* tyg|–\d+[.,]?\d* mies|za \d+[.,]?\d* g|za \d+[.,]?\d* s)$";
  lit "(?i)^(\d+[.,]?\d* ਮਹੀਨਾ ਪਹਿਲਾ|\d+[.,]?\d* ਮਹੀਨ ਪਹਿਲਾ|\d+[.,]?\d* ਮਹੀਨਿਆ ਵਿਚ|\d+[.,]?\d* ਸਕਿਟ ਪਹਿਲਾ|\d+[.,]?\d* ਹਫਤਾ ਪਹਿਲਾ|\d+[.,]?\d* ਘਟਾ ਪਹਿਲਾ|\d+[.,]?\d* ਦਿਨ ਪਹਿਲਾ|\d+[.,]?\d* ਮਿਟ ਪਹਿਲਾ|\d+[.,]?\d* ਸਕਿਟਾ ਵਿਚ|\d+[.,]?\d* ਸਾਲ ਪਹਿਲਾ|\d+[.,]?\d* ਹਫਤ ਪਹਿਲਾ|\d+[.,]?\d* ਹਫਤਿਆ ਵਿਚ|\d+[.,]?\d* ਘਟ ਪਹਿਲਾ|\d+[.,]?\d* ਘਟਿਆ ਵਿਚ|\d+[.,]?\d* ਦਿਨਾ ਵਿਚ|\d+[.,]?\d* ਮਹੀਨ ਵਿਚ|\d+[.,]?\d* ਮਿਟਾ ਵਿਚ|\d+[.,]?\d* ਸਕਿਟ ਵਿਚ|\d+[.,]?\d* ਸਾਲਾ ਵਿਚ|\d+[.,]?\d* ਦਿਨ ਵਿਚ|\d+[.,]?\d* ਮਿਟ ਵਿਚ|\d+[.,]?\d* ਸਾਲ ਵਿਚ|\d+[.,]?\d* ਹਫਤ ਵਿਚ|\d+[.,]?\d* ਘਟ ਵਿਚ)$";
  lit "(?i)^(dentro de \d+[.,]?\d* segundos|dentro de \d+[.,]?\d* minutos|dentro de \d+[.,]?\d* segundo|dentro de \d+[.,]?\d* semanas|dentro de \d+[.,]?\d* minuto|dentro de \d+[.,]?\d* semana|dentro de \d+[.,]?\d* horas|dentro de \d+[.,]?\d* meses|dentro de \d+[.,]?\d* anos|dentro de \d+[.,]?\d* dias|dentro de \d+[.,]?\d* hora|dentro de \d+[.,]?\d* ano|dentro de \d+[.,]?\d* dia|dentro de \d+[.,]?\d* mes|dentro de \d+[.,]?\d* min|dentro de \d+[.,]?\d* sem|dentro de \d+[.,]?\d* h|dentro de \d+[.,]?\d* s|em \d+[.,]?\d* segundos|ha \d+[.,]?\d* segundos|em \d+[.,]?\d* minutos|em \d+[.,]?\d* segundo|em \d+[.,]?\d* semanas|ha \d+[.,]?\d* minutos|ha \d+[.,]?\d* segundo|ha \d+[.,]?\d* semanas|em \d+[.,]?\d* minuto|em \d+[.,]?\d* semana|ha \d+[.,]?\d* minuto|ha \d+[.,]?\d* semana|em \d+[.,]?\d* horas|em \d+[.,]?\d* meses|ha \d+[.,]?\d* horas|ha \d+[.,]?\d* meses|em \d+[.,]?\d* anos|em \d+[.,]?\d* dias|em \d+[.,]?\d* hora|em \d+[.,]?\d* mins|em \d+[.,]?\d* segs|ha \d+[.,]?\d* anos|ha \d+[.,]?\d* dias|ha \d+[.,]?\d* hora|ha \d+[.,]?\d* mins|em \d+[.,]?\d* ano|em \d+[.,]?\d* dia|em \d+[.,]?\d* mes|em \d+[.,]?\d* min|em \d+[.,]?\d* seg|em \d+[.,]?\d* sem|ha \d+[.,]?\d* ano|ha \d+[.,]?\d* dia|ha \d+[.,]?\d* mes|ha \d+[.,]?\d* min|ha \d+[.,]?\d* seg|ha \d+[.,]?\d* sem|em \d+[.,]?\d* h|ha \d+[.,]?\d* h|ha \d+[.,]?\d* s)$";
  lit "(?i)^(em \d+[.,]?\d* segundos|ha \d+[.,]?\d* segundos|em \d+[.,]?\d* minutos|em \d+[.,]?\d* segundo|em \d+[.,]?\d* semanas|ha \d+[.,]?\d* minutos|ha \d+[.,]?\d* segundo|ha \d+[.,]?\d* semanas|em \d+[.,]?\d* minuto|em \d+[.,]?\d* semana|ha \d+[.,]?\d* minuto|ha \d+[.,]?\d* semana|em \d+[.,]?\d* horas|em \d+[.,]?\d* meses|ha \d+[.,]?\d* horas|ha \d+[.,]?\d* meses|em \d+[.,]?\d* anos|em \d+[.,]?\d* dias|em \d+[.,]?\d* hora|em \d+[.,]?\d* mins|em \d+[.,]?\d* segs|ha \d+[.,]?\d* anos|ha \d+[.,]?\d* dias|ha \d+[.,]?\d* hora|ha \d+[.,]?\d* mins|em \d+[.,]?\d* ano|em \d+[.,]?\d* dia|em \d+[.,]?\d* mes|em \d+[.,]?\d* min|em \d+[.,]?\d* seg|em \d+[.,]?\d* sem|ha \d+[.,]?\d* ano|ha \d+[.,]?\d* dia|ha \d+[.,]?\d* mes|ha \d+[.,]?\d* min|ha \d+[.,]?\d* seg|ha \d+[.,]?\d* sem|em \d+[.,]?\d* h|ha \d+[.,]?\d* h)$";
  lit "(?i)dentro de (\d+[.,]?\d*) ano";
  lit "(?i)dentro de (\d+[.,]?\d*) anos";
  lit "(?i)dentro de (\d+[.,]?\d*) dia";
  lit "(?i)dentro de (\d+[.,]?\d*) dias";
  lit "(?i)dentro de (\d+[.,]?\d*) h";
  lit "(?i)dentro de (\d+[.,]?\d*) hora";
  lit "(?i)dentro de (\d+[.,]?\d*) horas";
  lit "(?i)dentro de (\d+[.,]?\d*) mes";
  lit "(?i)dentro de (\d+[.,]?\d*) meses";
  lit "(?i)dentro de (\d+[.,]?\d*) min";
  lit "(?i)dentro de (\d+[.,]?\d*) minuto";
  lit "(?i)dentro de (\d+[.,]?\d*) minutos";
  lit "(?i)dentro de (\d+[.,]?\d*) s";
  lit "(?i)dentro de (\d+[.,]?\d*) segundo";
  lit "(?i)dentro de (\d+[.,]?\d*) segundos";
  lit "(?i)dentro de (\d+[.,]?\d*) sem";
  lit "(?i)dentro de (\d+[.,]?\d*) semana";
  lit "(?i)dentro de (\d+[.,]?\d*) semanas";
  lit "(?i)em (\d+[.,]?\d*) ano";
  lit "(?i)em (\d+[.,]?\d*) anos";
  lit "(?i)em (\d+[.,]?\d*) dia";
  lit "(?i)em (\d+[.,]?\d*) dias";
  lit "(?i)em (\d+[.,]?\d*) h";
  lit "(?i)em (\d+[.,]?\d*) hora";
  lit "(?i)em (\d+[.,]?\d*) horas";
  lit "(?i)em (\d+[.,]?\d*) mes";
  lit "(?i)em (\d+[.,]?\d*) meses";
  lit "(?i)em (\d+[.,]?\d*) min";
  lit "(?i)em (\d+[.,]?\d*) mins";
  lit "(?i)em (\d+[.,]?\d*) minuto";
  lit "(?i)em (\d+[.,]?\d*) minutos";
  lit "(?i)em (\d+[.,]?\d*) seg";
  lit "(?i)em (\d+[.,]?\d*) segs";
  lit "(?i)em (\d+[.,]?\d*) segundo";
  lit "(?i)em (\d+[.,]?\d*) segundos";
  lit "(?i)em (\d+[.,]?\d*) sem";
  lit "(?i)em (\d+[.,]?\d*) semana";
  lit "(?i)em (\d+[.,]?\d*) semanas";
  lit "(?i)ha (\d+[.,]?\d*) ano";
  lit "(?i)ha (\d+[.,]?\d*) anos";
  lit "(?i)ha (\d+[.,]?\d*) dia";
  lit "(?i)ha (\d+[.,]?\d*) dias";
  lit "(?i)ha (\d+[.,]?\d*) h";
  lit "(?i)ha (\d+[.,]?\d*) hora";
  lit "(?i)ha (\d+[.,]?\d*) horas";
  lit "(?i)ha (\d+[.,]?\d*) mes";
  lit "(?i)ha (\d+[.,]?\d*) meses";
  lit "(?i)ha (\d+[.,]?\d*) min";
  lit "(?i)ha (\d+[.,]?\d*) mins";
  lit "(?i)ha (\d+[.,]?\d*) minuto";
  lit "(?i)ha (\d+[.,]?\d*) minutos";
  lit "(?i)ha (\d+[.,]?\d*) s";
  lit "(?i)ha (\d+[.,]?\d*) seg";
  lit "(?i)ha (\d+[.,]?\d*) segundo";
  lit "(?i)ha (\d+[.,]?\d*) segundos";
  lit "(?i)ha (\d+[.,]?\d*) sem";
  lit "(?i)ha (\d+[.,]?\d*) semana";
  lit "(?i)ha (\d+[.,]?\d*) semanas";
  lit "(?i)za (\d+[.,]?\d*) dnia";
  lit "(?i)za (\d+[.,]?\d*) dzien";
  lit "(?i)za (\d+[.,]?\d*) g";
  lit "(?i)za (\d+[.,]?\d*) godz";
  lit "(?i)za (\d+[.,]?\d*) godzine";
  lit "(?i)za (\d+[.,]?\d*) godziny";
  lit "(?i)za (\d+[.,]?\d*) mies";
  lit "(?i)za (\d+[.,]?\d*) miesiac";
  lit "(?i)za (\d+[.,]?\d*) miesiaca";
  lit "(?i)za (\d+[.,]?\d*) min";
  lit "(?i)za (\d+[.,]?\d*) minute";
  lit "(?i)za (\d+[.,]?\d*) minuty";
  lit "(?i)za (\d+[.,]?\d*) rok";
  lit "(?i)za (\d+[.,]?\d*) roku";
  lit "(?i)za (\d+[.,]?\d*) s";
  lit "(?i)za (\d+[.,]?\d*) sek";
  lit "(?i)za (\d+[.,]?\d*) sekunde";
  lit "(?i)za (\d+[.,]?\d*) sekundy";
  lit "(?i)za (\d+[.,]?\d*) tydz";
  lit "(?i)za (\d+[.,]?\d*) tydzien";
  lit "(?i)za (\d+[.,]?\d*) tyg";
  lit "(?i)za (\d+[.,]?\d*) tygodnia";
  lit "(?i)–(\d+[.,]?\d*) mies"] = true.
Proof. vm_compute. reflexivity. Qed.

Definition table_09 : list (str * locale) :=
  [(lit "pa-Guru", loc_pa_Guru);
   (lit "pa", loc_pa);
   (lit "pl", loc_pl);
   (lit "ps", loc_ps);
   (lit "pt", loc_pt);
   (lit "pt-AO", loc_pt_AO);
   (lit "pt-CH", loc_pt_CH);
   (lit "pt-CV", loc_pt_CV);
   (lit "pt-GQ", loc_pt_GQ);
   (lit "pt-GW", loc_pt_GW);
   (lit "pt-LU", loc_pt_LU);
   (lit "pt-MO", loc_pt_MO);
   (lit "pt-MZ", loc_pt_MZ);
   (lit "pt-PT", loc_pt_PT);
   (lit "pt-ST", loc_pt_ST);
   (lit "pt-TL", loc_pt_TL);
   (lit "qu", loc_qu);
   (lit "qu-BO", loc_qu_BO);
   (lit "qu-EC", loc_qu_EC);
   (lit "rm", loc_rm);
   (lit "rn", loc_rn)].

(** each region with its language *)
Definition regions_09 : list (str * str) :=
  [(lit "pt-AO", lit "pt");
   (lit "pt-CH", lit "pt");
   (lit "pt-CV", lit "pt");
   (lit "pt-GQ", lit "pt");
   (lit "pt-GW", lit "pt");
   (lit "pt-LU", lit "pt");
   (lit "pt-MO", lit "pt");
   (lit "pt-MZ", lit "pt");
   (lit "pt-PT", lit "pt");
   (lit "pt-ST", lit "pt");
   (lit "pt-TL", lit "pt");
   (lit "qu-BO", lit "qu");
   (lit "qu-EC", lit "qu")].
