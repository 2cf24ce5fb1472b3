(** Generated by tools/gen_all_locales.py from /repo/internal/data. Do not edit. *)
From Verif Require Import GoBase SMap Regex Language LocaleData.

(** mk.go:12-139 *)
Definition loc_mk : locale := Eval vm_compute in
  {| ld_name := lit "mk"; ld_order := lit "DMY"; ld_nospacing := false; ld_splitter := 0;
    ld_charset := runes (lit "cgtuzабвгдеиклмнопрстуфцчј");
    ld_abbr := [];
    ld_simpl := [];
    ld_trans := [(lit "понеделник", [lit "monday"]);
    (lit "претпладне", [lit "am"]);
    (lit "септември", [lit "september"]);
    (lit "декември", [lit "december"]);
    (lit "октомври", [lit "october"]);
    (lit "попладне", [lit "pm"]);
    (lit "февруари", [lit "february"]);
    (lit "четврток", [lit "thursday"]);
    (lit "вторник", [lit "tuesday"]);
    (lit "ноември", [lit "november"]);
    (lit "секунда", [lit "second"]);
    (lit "јануари", [lit "january"]);
    (lit "август", [lit "august"]);
    (lit "година", [lit "year"]);
    (lit "минута", [lit "minute"]);
    (lit "недела", [lit "week"; lit "sunday"]);
    (lit "претпл", [lit "am"]);
    (lit "сабота", [lit "saturday"]);
    (lit "април", [lit "april"]);
    (lit "месец", [lit "month"]);
    (lit "петок", [lit "friday"]);
    (lit "среда", [lit "wednesday"]);
    (lit "март", [lit "march"]);
    (lit "ноем", [lit "november"]);
    (lit "попл", [lit "pm"]);
    (lit "септ", [lit "september"]);
    (lit "јули", [lit "july"]);
    (lit "јуни", [lit "june"]);
    (lit "gmt", [lit "gmt"]);
    (lit "utc", [lit "utc"]);
    (lit "авг", [lit "august"]);
    (lit "апр", [lit "april"]);
    (lit "вто", [lit "tuesday"]);
    (lit "год", [lit "year"]);
    (lit "дек", [lit "december"]);
    (lit "ден", [lit "day"]);
    (lit "мар", [lit "march"]);
    (lit "мај", [lit "may"]);
    (lit "мес", [lit "month"]);
    (lit "мин", [lit "minute"]);
    (lit "нед", [lit "sunday"]);
    (lit "окт", [lit "october"]);
    (lit "пет", [lit "friday"]);
    (lit "пон", [lit "monday"]);
    (lit "саб", [lit "saturday"]);
    (lit "сед", [lit "week"]);
    (lit "сек", [lit "second"]);
    (lit "сре", [lit "wednesday"]);
    (lit "фев", [lit "february"]);
    (lit "час", [lit "hour"]);
    (lit "чет", [lit "thursday"]);
    (lit "јан", [lit "january"]);
    (lit "јул", [lit "july"]);
    (lit "јун", [lit "june"]);
    (lit "am", [lit "am"]);
    (lit "pm", [lit "pm"]);
    (lit "вт", [lit "tuesday"]);
    (lit " ", [lit " "]);
    (lit "'", [lit ""]);
    (lit "+", [lit "+"]);
    (lit ",", [lit ""]);
    (lit "-", [lit "-"]);
    (lit ".", [lit "."]);
    (lit "/", [lit "/"]);
    (lit ":", [lit ":"]);
    (lit ";", [lit ""]);
    (lit "@", [lit ""]);
    (lit "[", [lit ""]);
    (lit "]", [lit ""]);
    (lit "z", [lit "z"]);
    (lit "|", [lit ""])];
    ld_reltype := [(lit "минатата седмица", lit "1 week ago");
    (lit "следната седмица", lit "in 1 week");
    (lit "минатата година", lit "1 year ago");
    (lit "следната година", lit "in 1 year");
    (lit "минатиот месец", lit "1 month ago");
    (lit "следниот месец", lit "in 1 month");
    (lit "оваа седмица", lit "0 week ago");
    (lit "оваа година", lit "0 year ago");
    (lit "оваа минута", lit "0 minute ago");
    (lit "овој месец", lit "0 month ago");
    (lit "вчера", lit "1 day ago");
    (lit "денес", lit "0 day ago");
    (lit "часов", lit "0 hour ago");
    (lit "сега", lit "0 second ago");
    (lit "утре", lit "in 1 day")];
    ld_relrx := [(rx "(?i)пред (\d+[.,]?\d*) седмица", lit "$1 week ago");
    (rx "(?i)пред (\d+[.,]?\d*) седмици", lit "$1 week ago");
    (rx "(?i)пред (\d+[.,]?\d*) секунда", lit "$1 second ago");
    (rx "(?i)пред (\d+[.,]?\d*) секунди", lit "$1 second ago");
    (rx "(?i)пред (\d+[.,]?\d*) година", lit "$1 year ago");
    (rx "(?i)пред (\d+[.,]?\d*) години", lit "$1 year ago");
    (rx "(?i)пред (\d+[.,]?\d*) месеци", lit "$1 month ago");
    (rx "(?i)пред (\d+[.,]?\d*) минута", lit "$1 minute ago");
    (rx "(?i)пред (\d+[.,]?\d*) минути", lit "$1 minute ago");
    (rx "(?i)за (\d+[.,]?\d*) седмица", lit "in $1 week");
    (rx "(?i)за (\d+[.,]?\d*) седмици", lit "in $1 week");
    (rx "(?i)за (\d+[.,]?\d*) секунда", lit "in $1 second");
    (rx "(?i)за (\d+[.,]?\d*) секунди", lit "in $1 second");
    (rx "(?i)пред (\d+[.,]?\d*) месец", lit "$1 month ago");
    (rx "(?i)за (\d+[.,]?\d*) година", lit "in $1 year");
    (rx "(?i)за (\d+[.,]?\d*) години", lit "in $1 year");
    (rx "(?i)за (\d+[.,]?\d*) месеци", lit "in $1 month");
    (rx "(?i)за (\d+[.,]?\d*) минута", lit "in $1 minute");
    (rx "(?i)за (\d+[.,]?\d*) минути", lit "in $1 minute");
    (rx "(?i)пред (\d+[.,]?\d*) дена", lit "$1 day ago");
    (rx "(?i)пред (\d+[.,]?\d*) часа", lit "$1 hour ago");
    (rx "(?i)за (\d+[.,]?\d*) месец", lit "in $1 month");
    (rx "(?i)пред (\d+[.,]?\d*) ден", lit "$1 day ago");
    (rx "(?i)пред (\d+[.,]?\d*) час", lit "$1 hour ago");
    (rx "(?i)за (\d+[.,]?\d*) дена", lit "in $1 day");
    (rx "(?i)за (\d+[.,]?\d*) часа", lit "in $1 hour");
    (rx "(?i)за (\d+[.,]?\d*) ден", lit "in $1 day");
    (rx "(?i)за (\d+[.,]?\d*) час", lit "in $1 hour")];
    ld_rx := Some (rx "(?i)(\A|[^\pL\pM\d]|_)(пред \d+[.,]?\d* седмица|пред \d+[.,]?\d* седмици|пред \d+[.,]?\d* секунда|пред \d+[.,]?\d* секунди|пред \d+[.,]?\d* година|пред \d+[.,]?\d* години|пред \d+[.,]?\d* месеци|пред \d+[.,]?\d* минута|пред \d+[.,]?\d* минути|за \d+[.,]?\d* седмица|за \d+[.,]?\d* седмици|за \d+[.,]?\d* секунда|за \d+[.,]?\d* секунди|пред \d+[.,]?\d* месец|за \d+[.,]?\d* година|за \d+[.,]?\d* години|за \d+[.,]?\d* месеци|за \d+[.,]?\d* минута|за \d+[.,]?\d* минути|пред \d+[.,]?\d* дена|пред \d+[.,]?\d* часа|за \d+[.,]?\d* месец|пред \d+[.,]?\d* ден|пред \d+[.,]?\d* час|за \d+[.,]?\d* дена|за \d+[.,]?\d* часа|за \d+[.,]?\d* ден|за \d+[.,]?\d* час)(\z|[^\pL\pM\d]|_)");
    ld_rx_exact := Some (rx "(?i)^(пред \d+[.,]?\d* седмица|пред \d+[.,]?\d* седмици|пред \d+[.,]?\d* секунда|пред \d+[.,]?\d* секунди|пред \d+[.,]?\d* година|пред \d+[.,]?\d* години|пред \d+[.,]?\d* месеци|пред \d+[.,]?\d* минута|пред \d+[.,]?\d* минути|за \d+[.,]?\d* седмица|за \d+[.,]?\d* седмици|за \d+[.,]?\d* секунда|за \d+[.,]?\d* секунди|пред \d+[.,]?\d* месец|за \d+[.,]?\d* година|за \d+[.,]?\d* години|за \d+[.,]?\d* месеци|за \d+[.,]?\d* минута|за \d+[.,]?\d* минути|пред \d+[.,]?\d* дена|пред \d+[.,]?\d* часа|за \d+[.,]?\d* месец|пред \d+[.,]?\d* ден|пред \d+[.,]?\d* час|за \d+[.,]?\d* дена|за \d+[.,]?\d* часа|за \d+[.,]?\d* ден|за \d+[.,]?\d* час)$");
    ld_known := [lit "минатата седмица";
    lit "следната седмица";
    lit "минатата година";
    lit "следната година";
    lit "минатиот месец";
    lit "следниот месец";
    lit "оваа седмица";
    lit "оваа година";
    lit "оваа минута";
    lit "овој месец";
    lit "понеделник";
    lit "претпладне";
    lit "септември";
    lit "декември";
    lit "октомври";
    lit "попладне";
    lit "февруари";
    lit "четврток";
    lit "вторник";
    lit "ноември";
    lit "секунда";
    lit "јануари";
    lit "август";
    lit "година";
    lit "минута";
    lit "недела";
    lit "претпл";
    lit "сабота";
    lit "април";
    lit "вчера";
    lit "денес";
    lit "месец";
    lit "петок";
    lit "среда";
    lit "часов";
    lit "март";
    lit "ноем";
    lit "попл";
    lit "сега";
    lit "септ";
    lit "утре";
    lit "јули";
    lit "јуни";
    lit "gmt";
    lit "utc";
    lit "авг";
    lit "апр";
    lit "вто";
    lit "год";
    lit "дек";
    lit "ден";
    lit "мар";
    lit "мај";
    lit "мес";
    lit "мин";
    lit "нед";
    lit "окт";
    lit "пет";
    lit "пон";
    lit "саб";
    lit "сед";
    lit "сек";
    lit "сре";
    lit "фев";
    lit "час";
    lit "чет";
    lit "јан";
    lit "јул";
    lit "јун";
    lit "am";
    lit "pm";
    lit "вт";
    lit " ";
    lit "'";
    lit "+";
    lit ",";
    lit "-";
    lit ".";
    lit "/";
    lit ":";
    lit ";";
    lit "@";
    lit "[";
    lit "]";
    lit "z";
    lit "|"] |}.

(** ml.go:12-121 *)
Definition loc_ml : locale := Eval vm_compute in
  {| ld_name := lit "ml"; ld_order := lit "DMY"; ld_nospacing := false; ld_splitter := 0;
    ld_charset := runes (lit "cgtuzംഅആഇഈഏഒഓകഗങചജഞടഡണതദധനപഫബമയരറലളഴവശഷസാിുൂെേൈൊോ്ൺൻർൽൾ‌");
    ld_abbr := [];
    ld_simpl := [];
    ld_trans := [(lit "വെളളിയാഴ‌ച", [lit "friday"]);
    (lit "തിങകളാഴ‌ച", [lit "monday"]);
    (lit "ചൊവവാഴ‌ച", [lit "tuesday"]);
    (lit "ഞായറാഴ‌ച", [lit "sunday"]);
    (lit "വയാഴാഴ‌ച", [lit "thursday"]);
    (lit "ശനിയാഴ‌ച", [lit "saturday"]);
    (lit "സെപററംബർ", [lit "september"]);
    (lit "ഒക‌ടോബർ", [lit "october"]);
    (lit "ചൊവവാഴച", [lit "tuesday"]);
    (lit "ഫെബരവരി", [lit "february"]);
    (lit "ബധനാഴ‌ച", [lit "wednesday"]);
    (lit "ഡിസംബർ", [lit "december"]);
    (lit "മണികകർ", [lit "hour"]);
    (lit "മിനിററ", [lit "minute"]);
    (lit "സെകകൻഡ", [lit "second"]);
    (lit "സെപററം", [lit "september"]);
    (lit "ഏപരിൽ", [lit "april"]);
    (lit "ഓഗസററ", [lit "august"]);
    (lit "ജനവരി", [lit "january"]);
    (lit "തിങകൾ", [lit "monday"]);
    (lit "ദിവസം", [lit "day"]);
    (lit "നവംബർ", [lit "november"]);
    (lit "മാർചച", [lit "march"]);
    (lit "വയാഴം", [lit "thursday"]);
    (lit "വെളളി", [lit "friday"]);
    (lit "ഏപരി", [lit "april"]);
    (lit "ഒകടോ", [lit "october"]);
    (lit "ചൊവവ", [lit "tuesday"]);
    (lit "ഞായർ", [lit "sunday"]);
    (lit "ഡിസം", [lit "december"]);
    (lit "ഫെബര", [lit "february"]);
    (lit "മാസം", [lit "month"]);
    (lit "വർഷം", [lit "year"]);
    (lit "gmt", [lit "gmt"]);
    (lit "utc", [lit "utc"]);
    (lit "ആഴച", [lit "week"]);
    (lit "ജലൈ", [lit "july"]);
    (lit "നവം", [lit "november"]);
    (lit "ബധൻ", [lit "wednesday"]);
    (lit "മാർ", [lit "march"]);
    (lit "മേയ", [lit "may"]);
    (lit "ശനി", [lit "saturday"]);
    (lit "am", [lit "am"]);
    (lit "pm", [lit "pm"]);
    (lit "ഓഗ", [lit "august"]);
    (lit "ജന", [lit "january"]);
    (lit "ജൺ", [lit "june"]);
    (lit "മാ", [lit "month"]);
    (lit "മി", [lit "minute"]);
    (lit "സെ", [lit "second"]);
    (lit " ", [lit " "]);
    (lit "'", [lit ""]);
    (lit "+", [lit "+"]);
    (lit ",", [lit ""]);
    (lit "-", [lit "-"]);
    (lit ".", [lit "."]);
    (lit "/", [lit "/"]);
    (lit ":", [lit ":"]);
    (lit ";", [lit ""]);
    (lit "@", [lit ""]);
    (lit "[", [lit ""]);
    (lit "]", [lit ""]);
    (lit "z", [lit "z"]);
    (lit "|", [lit ""]);
    (lit "ആ", [lit "week"]);
    (lit "മ", [lit "hour"]);
    (lit "വ", [lit "year"])];
    ld_reltype := [(lit "ഈ മണികകറിൽ", lit "0 hour ago");
    (lit "ഈ മിനിററിൽ", lit "0 minute ago");
    (lit "കഴിഞഞ ആഴ‌ച", lit "1 week ago");
    (lit "കഴിഞഞ മാസം", lit "1 month ago");
    (lit "കഴിഞഞ വർഷം", lit "1 year ago");
    (lit "അടതത മാസം", lit "in 1 month");
    (lit "അടതത ആഴച", lit "in 1 week");
    (lit "അടതതവർഷം", lit "in 1 year");
    (lit "ഈ വർ‌ഷം", lit "0 year ago");
    (lit "ഈ മാസം", lit "0 month ago");
    (lit "ഇനനലെ", lit "1 day ago");
    (lit "ഇപപോൾ", lit "0 second ago");
    (lit "ഈ ആഴച", lit "0 week ago");
    (lit "നാളെ", lit "in 1 day");
    (lit "ഇനന", lit "0 day ago")];
    ld_relrx := [(rx "(?i)(\d+[.,]?\d*) മണികകർ മമപ", lit "$1 hour ago");
    (rx "(?i)(\d+[.,]?\d*) മിനിററ മമപ", lit "$1 minute ago");
    (rx "(?i)(\d+[.,]?\d*) സെകകൻഡ മമപ", lit "$1 second ago");
    (rx "(?i)(\d+[.,]?\d*) ദിവസം മമപ", lit "$1 day ago");
    (rx "(?i)(\d+[.,]?\d*) ദിവസതതിൽ", lit "in $1 day");
    (rx "(?i)(\d+[.,]?\d*) മണികകറിൽ", lit "in $1 hour");
    (rx "(?i)(\d+[.,]?\d*) മാസം മമപ", lit "$1 month ago");
    (rx "(?i)(\d+[.,]?\d*) മിനിററിൽ", lit "in $1 minute");
    (rx "(?i)(\d+[.,]?\d*) വർഷം മമപ", lit "$1 year ago");
    (rx "(?i)(\d+[.,]?\d*) സെകകൻഡിൽ", lit "in $1 second");
    (rx "(?i)(\d+[.,]?\d*) ആഴച മമപ", lit "$1 week ago");
    (rx "(?i)(\d+[.,]?\d*) മാസതതിൽ", lit "in $1 month");
    (rx "(?i)(\d+[.,]?\d*) വർഷതതിൽ", lit "in $1 year");
    (rx "(?i)(\d+[.,]?\d*) ആഴചയിൽ", lit "in $1 week")];
    ld_rx := Some (rx "(?i)(\A|[^\pL\pM\d]|_)(\d+[.,]?\d* മണികകർ മമപ|\d+[.,]?\d* മിനിററ മമപ|\d+[.,]?\d* സെകകൻഡ മമപ|\d+[.,]?\d* ദിവസം മമപ|\d+[.,]?\d* ദിവസതതിൽ|\d+[.,]?\d* മണികകറിൽ|\d+[.,]?\d* മാസം മമപ|\d+[.,]?\d* മിനിററിൽ|\d+[.,]?\d* വർഷം മമപ|\d+[.,]?\d* സെകകൻഡിൽ|\d+[.,]?\d* ആഴച മമപ|\d+[.,]?\d* മാസതതിൽ|\d+[.,]?\d* വർഷതതിൽ|\d+[.,]?\d* ആഴചയിൽ)(\z|[^\pL\pM\d]|_)");
    ld_rx_exact := Some (rx "(?i)^(\d+[.,]?\d* മണികകർ മമപ|\d+[.,]?\d* മിനിററ മമപ|\d+[.,]?\d* സെകകൻഡ മമപ|\d+[.,]?\d* ദിവസം മമപ|\d+[.,]?\d* ദിവസതതിൽ|\d+[.,]?\d* മണികകറിൽ|\d+[.,]?\d* മാസം മമപ|\d+[.,]?\d* മിനിററിൽ|\d+[.,]?\d* വർഷം മമപ|\d+[.,]?\d* സെകകൻഡിൽ|\d+[.,]?\d* ആഴച മമപ|\d+[.,]?\d* മാസതതിൽ|\d+[.,]?\d* വർഷതതിൽ|\d+[.,]?\d* ആഴചയിൽ)$");
    ld_known := [lit "ഈ മണികകറിൽ";
    lit "ഈ മിനിററിൽ";
    lit "കഴിഞഞ ആഴ‌ച";
    lit "കഴിഞഞ മാസം";
    lit "കഴിഞഞ വർഷം";
    lit "വെളളിയാഴ‌ച";
    lit "അടതത മാസം";
    lit "തിങകളാഴ‌ച";
    lit "അടതത ആഴച";
    lit "അടതതവർഷം";
    lit "ചൊവവാഴ‌ച";
    lit "ഞായറാഴ‌ച";
    lit "വയാഴാഴ‌ച";
    lit "ശനിയാഴ‌ച";
    lit "സെപററംബർ";
    lit "ഈ വർ‌ഷം";
    lit "ഒക‌ടോബർ";
    lit "ചൊവവാഴച";
    lit "ഫെബരവരി";
    lit "ബധനാഴ‌ച";
    lit "ഈ മാസം";
    lit "ഡിസംബർ";
    lit "മണികകർ";
    lit "മിനിററ";
    lit "സെകകൻഡ";
    lit "സെപററം";
    lit "ഇനനലെ";
    lit "ഇപപോൾ";
    lit "ഈ ആഴച";
    lit "ഏപരിൽ";
    lit "ഓഗസററ";
    lit "ജനവരി";
    lit "തിങകൾ";
    lit "ദിവസം";
    lit "നവംബർ";
    lit "മാർചച";
    lit "വയാഴം";
    lit "വെളളി";
    lit "ഏപരി";
    lit "ഒകടോ";
    lit "ചൊവവ";
    lit "ഞായർ";
    lit "ഡിസം";
    lit "നാളെ";
    lit "ഫെബര";
    lit "മാസം";
    lit "വർഷം";
    lit "gmt";
    lit "utc";
    lit "ആഴച";
    lit "ഇനന";
    lit "ജലൈ";
    lit "നവം";
    lit "ബധൻ";
    lit "മാർ";
    lit "മേയ";
    lit "ശനി";
    lit "am";
    lit "pm";
    lit "ഓഗ";
    lit "ജന";
    lit "ജൺ";
    lit "മാ";
    lit "മി";
    lit "സെ";
    lit " ";
    lit "'";
    lit "+";
    lit ",";
    lit "-";
    lit ".";
    lit "/";
    lit ":";
    lit ";";
    lit "@";
    lit "[";
    lit "]";
    lit "z";
    lit "|";
    lit "ആ";
    lit "മ";
    lit "വ"] |}.

(** mn.go:12-130 *)
Definition loc_mn : locale := Eval vm_compute in
  {| ld_name := lit "mn"; ld_order := lit "YMD"; ld_nospacing := false; ld_splitter := 0;
    ld_charset := runes (lit "-cgtuzабвгдежзийклмнопрстухцчшэяёүө");
    ld_abbr := [];
    ld_simpl := [];
    ld_trans := [(lit "арван хоердугаар сар", [lit "december"]);
    (lit "арван нэгдүгээр сар", [lit "november"]);
    (lit "гуравдугаар сар", [lit "march"]);
    (lit "дөрөвдүгээр сар", [lit "april"]);
    (lit "зургадугаар сар", [lit "june"]);
    (lit "аравдугаар сар", [lit "october"]);
    (lit "наимдугаар сар", [lit "august"]);
    (lit "хоердугаар сар", [lit "february"]);
    (lit "долдугаар сар", [lit "july"]);
    (lit "нэгдүгээр сар", [lit "january"]);
    (lit "тавдугаар сар", [lit "may"]);
    (lit "есдүгээр сар", [lit "september"]);
    (lit "долоо хоног", [lit "week"]);
    (lit "10-р сар", [lit "october"]);
    (lit "11-р сар", [lit "november"]);
    (lit "12-р сар", [lit "december"]);
    (lit "1-р сар", [lit "january"]);
    (lit "2-р сар", [lit "february"]);
    (lit "3-р сар", [lit "march"]);
    (lit "4-р сар", [lit "april"]);
    (lit "5-р сар", [lit "may"]);
    (lit "6-р сар", [lit "june"]);
    (lit "7-р сар", [lit "july"]);
    (lit "8-р сар", [lit "august"]);
    (lit "9-р сар", [lit "september"]);
    (lit "баасан", [lit "friday"]);
    (lit "лхагва", [lit "wednesday"]);
    (lit "мягмар", [lit "tuesday"]);
    (lit "секунд", [lit "second"]);
    (lit "бямба", [lit "saturday"]);
    (lit "даваа", [lit "monday"]);
    (lit "минут", [lit "minute"]);
    (lit "пүрэв", [lit "thursday"]);
    (lit "өдөр", [lit "day"]);
    (lit "gmt", [lit "gmt"]);
    (lit "utc", [lit "utc"]);
    (lit "жил", [lit "year"]);
    (lit "мин", [lit "minute"]);
    (lit "ням", [lit "sunday"]);
    (lit "сар", [lit "month"]);
    (lit "сек", [lit "second"]);
    (lit "цаг", [lit "hour"]);
    (lit "7х", [lit "week"]);
    (lit "am", [lit "am"]);
    (lit "pm", [lit "pm"]);
    (lit "ба", [lit "friday"]);
    (lit "бя", [lit "saturday"]);
    (lit "да", [lit "monday"]);
    (lit "лх", [lit "wednesday"]);
    (lit "мя", [lit "tuesday"]);
    (lit "ня", [lit "sunday"]);
    (lit "пү", [lit "thursday"]);
    (lit "үх", [lit "pm"]);
    (lit "үө", [lit "am"]);
    (lit " ", [lit " "]);
    (lit "'", [lit ""]);
    (lit "+", [lit "+"]);
    (lit ",", [lit ""]);
    (lit "-", [lit "-"]);
    (lit ".", [lit "."]);
    (lit "/", [lit "/"]);
    (lit ":", [lit ":"]);
    (lit ";", [lit ""]);
    (lit "@", [lit ""]);
    (lit "[", [lit ""]);
    (lit "]", [lit ""]);
    (lit "z", [lit "z"]);
    (lit "|", [lit ""]);
    (lit "ц", [lit "hour"])];
    ld_reltype := [(lit "өнгөрсөн долоо хоног", lit "1 week ago");
    (lit "ирэх долоо хоног", lit "in 1 week");
    (lit "энэ долоо хоног", lit "0 week ago");
    (lit "өнгөрсөн жил", lit "1 year ago");
    (lit "өнгөрсөн сар", lit "1 month ago");
    (lit "энэ минут", lit "0 minute ago");
    (lit "ирэх жил", lit "in 1 year");
    (lit "ирэх сар", lit "in 1 month");
    (lit "маргааш", lit "in 1 day");
    (lit "энэ жил", lit "0 year ago");
    (lit "энэ сар", lit "0 month ago");
    (lit "энэ цаг", lit "0 hour ago");
    (lit "өнөөдөр", lit "0 day ago");
    (lit "өчигдөр", lit "1 day ago");
    (lit "одоо", lit "0 second ago")];
    ld_relrx := [(rx "(?i)(\d+[.,]?\d*) секундын дараа", lit "in $1 second");
    (rx "(?i)(\d+[.,]?\d*) минутын дараа", lit "in $1 minute");
    (rx "(?i)(\d+[.,]?\d*) секундын өмнө", lit "$1 second ago");
    (rx "(?i)(\d+[.,]?\d*) 7х-иин дараа", lit "in $1 week");
    (rx "(?i)(\d+[.,]?\d*) жилиин дараа", lit "in $1 year");
    (rx "(?i)(\d+[.,]?\d*) минутын өмнө", lit "$1 minute ago");
    (rx "(?i)(\d+[.,]?\d*) цагиин дараа", lit "in $1 hour");
    (rx "(?i)(\d+[.,]?\d*) өдриин дараа", lit "in $1 day");
    (rx "(?i)(\d+[.,]?\d*) 7х-иин өмнө", lit "$1 week ago");
    (rx "(?i)(\d+[.,]?\d*) жилиин өмнө", lit "$1 year ago");
    (rx "(?i)(\d+[.,]?\d*) сарын дараа", lit "in $1 month");
    (rx "(?i)(\d+[.,]?\d*) цагиин өмнө", lit "$1 hour ago");
    (rx "(?i)(\d+[.,]?\d*) өдриин өмнө", lit "$1 day ago");
    (rx "(?i)(\d+[.,]?\d*) сарын өмнө", lit "$1 month ago");
    (rx "(?i)(\d+[.,]?\d*) мин дараа", lit "in $1 minute");
    (rx "(?i)(\d+[.,]?\d*) сек дараа", lit "in $1 second");
    (rx "(?i)(\d+[.,]?\d*) мин өмнө", lit "$1 minute ago");
    (rx "(?i)(\d+[.,]?\d*) сек өмнө", lit "$1 second ago");
    (rx "(?i)(\d+[.,]?\d*) ц дараа", lit "in $1 hour");
    (rx "(?i)(\d+[.,]?\d*) ц өмнө", lit "$1 hour ago");
    (rx "(?i)(\d+[.,]?\d*) өдөрт", lit "in $1 day")];
    ld_rx := Some (rx "(?i)(\A|[^\pL\pM\d]|_)(\d+[.,]?\d* секундын дараа|\d+[.,]?\d* минутын дараа|\d+[.,]?\d* секундын өмнө|\d+[.,]?\d* 7х-иин дараа|\d+[.,]?\d* жилиин дараа|\d+[.,]?\d* минутын өмнө|\d+[.,]?\d* цагиин дараа|\d+[.,]?\d* өдриин дараа|\d+[.,]?\d* 7х-иин өмнө|\d+[.,]?\d* жилиин өмнө|\d+[.,]?\d* сарын дараа|\d+[.,]?\d* цагиин өмнө|\d+[.,]?\d* өдриин өмнө|\d+[.,]?\d* сарын өмнө|\d+[.,]?\d* мин дараа|\d+[.,]?\d* сек дараа|\d+[.,]?\d* мин өмнө|\d+[.,]?\d* сек өмнө|\d+[.,]?\d* ц дараа|\d+[.,]?\d* ц өмнө|\d+[.,]?\d* өдөрт)(\z|[^\pL\pM\d]|_)");
    ld_rx_exact := Some (rx "(?i)^(\d+[.,]?\d* секундын дараа|\d+[.,]?\d* минутын дараа|\d+[.,]?\d* секундын өмнө|\d+[.,]?\d* 7х-иин дараа|\d+[.,]?\d* жилиин дараа|\d+[.,]?\d* минутын өмнө|\d+[.,]?\d* цагиин дараа|\d+[.,]?\d* өдриин дараа|\d+[.,]?\d* 7х-иин өмнө|\d+[.,]?\d* жилиин өмнө|\d+[.,]?\d* сарын дараа|\d+[.,]?\d* цагиин өмнө|\d+[.,]?\d* өдриин өмнө|\d+[.,]?\d* сарын өмнө|\d+[.,]?\d* мин дараа|\d+[.,]?\d* сек дараа|\d+[.,]?\d* мин өмнө|\d+[.,]?\d* сек өмнө|\d+[.,]?\d* ц дараа|\d+[.,]?\d* ц өмнө|\d+[.,]?\d* өдөрт)$");
    ld_known := [lit "арван хоердугаар сар";
    lit "өнгөрсөн долоо хоног";
    lit "арван нэгдүгээр сар";
    lit "ирэх долоо хоног";
    lit "гуравдугаар сар";
    lit "дөрөвдүгээр сар";
    lit "зургадугаар сар";
    lit "энэ долоо хоног";
    lit "аравдугаар сар";
    lit "наимдугаар сар";
    lit "хоердугаар сар";
    lit "долдугаар сар";
    lit "нэгдүгээр сар";
    lit "тавдугаар сар";
    lit "есдүгээр сар";
    lit "өнгөрсөн жил";
    lit "өнгөрсөн сар";
    lit "долоо хоног";
    lit "энэ минут";
    lit "10-р сар";
    lit "11-р сар";
    lit "12-р сар";
    lit "ирэх жил";
    lit "ирэх сар";
    lit "1-р сар";
    lit "2-р сар";
    lit "3-р сар";
    lit "4-р сар";
    lit "5-р сар";
    lit "6-р сар";
    lit "7-р сар";
    lit "8-р сар";
    lit "9-р сар";
    lit "маргааш";
    lit "энэ жил";
    lit "энэ сар";
    lit "энэ цаг";
    lit "өнөөдөр";
    lit "өчигдөр";
    lit "баасан";
    lit "лхагва";
    lit "мягмар";
    lit "секунд";
    lit "бямба";
    lit "даваа";
    lit "минут";
    lit "пүрэв";
    lit "одоо";
    lit "өдөр";
    lit "gmt";
    lit "utc";
    lit "жил";
    lit "мин";
    lit "ням";
    lit "сар";
    lit "сек";
    lit "цаг";
    lit "7х";
    lit "am";
    lit "pm";
    lit "ба";
    lit "бя";
    lit "да";
    lit "лх";
    lit "мя";
    lit "ня";
    lit "пү";
    lit "үх";
    lit "үө";
    lit " ";
    lit "'";
    lit "+";
    lit ",";
    lit "-";
    lit ".";
    lit "/";
    lit ":";
    lit ";";
    lit "@";
    lit "[";
    lit "]";
    lit "z";
    lit "|";
    lit "ц"] |}.

(** mr.go:12-121 *)
Definition loc_mr : locale := Eval vm_compute in
  {| ld_name := lit "mr"; ld_order := lit "DMY"; ld_nospacing := false; ld_splitter := 0;
    ld_charset := runes (lit "cgtuzंआउएऑकगचजटठडढतदधनपफबमयरलळवशषसहािीुूेैो्");
    ld_abbr := [];
    ld_simpl := [];
    ld_trans := [(lit "जानवारी", [lit "january"]);
    (lit "फबरवारी", [lit "february"]);
    (lit "ऑकटोबर", [lit "october"]);
    (lit "नोवहबर", [lit "november"]);
    (lit "मगळवार", [lit "tuesday"]);
    (lit "रविवार", [lit "sunday"]);
    (lit "शकरवार", [lit "friday"]);
    (lit "शनिवार", [lit "saturday"]);
    (lit "सोमवार", [lit "monday"]);
    (lit "आठवडा", [lit "week"]);
    (lit "एपरिल", [lit "april"]);
    (lit "गरवार", [lit "thursday"]);
    (lit "डिसबर", [lit "december"]);
    (lit "बधवार", [lit "wednesday"]);
    (lit "महिना", [lit "month"]);
    (lit "मिनिट", [lit "minute"]);
    (lit "सपटबर", [lit "september"]);
    (lit "एपरि", [lit "april"]);
    (lit "ऑकटो", [lit "october"]);
    (lit "ऑगसट", [lit "august"]);
    (lit "दिवस", [lit "day"]);
    (lit "नोवह", [lit "november"]);
    (lit "मारच", [lit "march"]);
    (lit "gmt", [lit "gmt"]);
    (lit "utc", [lit "utc"]);
    (lit "जान", [lit "january"]);
    (lit "डिस", [lit "december"]);
    (lit "तास", [lit "hour"]);
    (lit "फबर", [lit "february"]);
    (lit "मगळ", [lit "tuesday"]);
    (lit "रवि", [lit "sunday"]);
    (lit "वरष", [lit "year"]);
    (lit "शकर", [lit "friday"]);
    (lit "शनि", [lit "saturday"]);
    (lit "सकद", [lit "second"]);
    (lit "सपट", [lit "september"]);
    (lit "सोम", [lit "monday"]);
    (lit "am", [lit "am"]);
    (lit "pm", [lit "pm"]);
    (lit "ऑग", [lit "august"]);
    (lit "गर", [lit "thursday"]);
    (lit "जन", [lit "june"]);
    (lit "जल", [lit "july"]);
    (lit "बध", [lit "wednesday"]);
    (lit "मउ", [lit "pm"]);
    (lit "मप", [lit "am"]);
    (lit "मि", [lit "minute"]);
    (lit " ", [lit " "]);
    (lit "'", [lit ""]);
    (lit "+", [lit "+"]);
    (lit ",", [lit ""]);
    (lit "-", [lit "-"]);
    (lit ".", [lit "."]);
    (lit "/", [lit "/"]);
    (lit ":", [lit ":"]);
    (lit ";", [lit ""]);
    (lit "@", [lit ""]);
    (lit "[", [lit ""]);
    (lit "]", [lit ""]);
    (lit "z", [lit "z"]);
    (lit "|", [lit ""]);
    (lit "म", [lit "may"]);
    (lit "स", [lit "second"])];
    ld_reltype := [(lit "मागील आठवडा", lit "1 week ago");
    (lit "मागील महिना", lit "1 month ago");
    (lit "पढील आठवडा", lit "in 1 week");
    (lit "पढील महिना", lit "in 1 month");
    (lit "या मिनिटात", lit "0 minute ago");
    (lit "मागील वरष", lit "1 year ago");
    (lit "पढील वरष", lit "in 1 year");
    (lit "हा आठवडा", lit "0 week ago");
    (lit "हा महिना", lit "0 month ago");
    (lit "तासात", lit "0 hour ago");
    (lit "ह वरष", lit "0 year ago");
    (lit "आतता", lit "0 second ago");
    (lit "उदया", lit "in 1 day");
    (lit "काल", lit "1 day ago");
    (lit "आज", lit "0 day ago")];
    ld_relrx := [(rx "(?i)(\d+[.,]?\d*) आठवडयापरवी", lit "$1 week ago");
    (rx "(?i)(\d+[.,]?\d*) महिनयापरवी", lit "$1 month ago");
    (rx "(?i)(\d+[.,]?\d*) मिनिटापरवी", lit "$1 minute ago");
    (rx "(?i)(\d+[.,]?\d*) आठवडयामधय", lit "in $1 week");
    (rx "(?i)(\d+[.,]?\d*) दिवसापरवी", lit "$1 day ago");
    (rx "(?i)(\d+[.,]?\d*) महिनयामधय", lit "in $1 month");
    (rx "(?i)(\d+[.,]?\d*) मिनि परवी", lit "$1 minute ago");
    (rx "(?i)(\d+[.,]?\d*) मिनिटामधय", lit "in $1 minute");
    (rx "(?i)(\d+[.,]?\d*) तासापरवी", lit "$1 hour ago");
    (rx "(?i)(\d+[.,]?\d*) दिवसामधय", lit "in $1 day");
    (rx "(?i)(\d+[.,]?\d*) मिनि मधय", lit "in $1 minute");
    (rx "(?i)(\d+[.,]?\d*) वरषापरवी", lit "$1 year ago");
    (rx "(?i)(\d+[.,]?\d*) सकदापरवी", lit "$1 second ago");
    (rx "(?i)(\d+[.,]?\d*) तासामधय", lit "in $1 hour");
    (rx "(?i)(\d+[.,]?\d*) वरषामधय", lit "in $1 year");
    (rx "(?i)(\d+[.,]?\d*) सकदामधय", lit "in $1 second");
    (rx "(?i)(\d+[.,]?\d*) स परवी", lit "$1 second ago");
    (rx "(?i)(\d+[.,]?\d*) स मधय", lit "in $1 second")];
    ld_rx := Some (rx "(?i)(\A|[^\pL\pM\d]|_)(\d+[.,]?\d* आठवडयापरवी|\d+[.,]?\d* महिनयापरवी|\d+[.,]?\d* मिनिटापरवी|\d+[.,]?\d* आठवडयामधय|\d+[.,]?\d* दिवसापरवी|\d+[.,]?\d* महिनयामधय|\d+[.,]?\d* मिनि परवी|\d+[.,]?\d* मिनिटामधय|\d+[.,]?\d* तासापरवी|\d+[.,]?\d* दिवसामधय|\d+[.,]?\d* मिनि मधय|\d+[.,]?\d* वरषापरवी|\d+[.,]?\d* सकदापरवी|\d+[.,]?\d* तासामधय|\d+[.,]?\d* वरषामधय|\d+[.,]?\d* सकदामधय|\d+[.,]?\d* स परवी|\d+[.,]?\d* स मधय)(\z|[^\pL\pM\d]|_)");
    ld_rx_exact := Some (rx "(?i)^(\d+[.,]?\d* आठवडयापरवी|\d+[.,]?\d* महिनयापरवी|\d+[.,]?\d* मिनिटापरवी|\d+[.,]?\d* आठवडयामधय|\d+[.,]?\d* दिवसापरवी|\d+[.,]?\d* महिनयामधय|\d+[.,]?\d* मिनि परवी|\d+[.,]?\d* मिनिटामधय|\d+[.,]?\d* तासापरवी|\d+[.,]?\d* दिवसामधय|\d+[.,]?\d* मिनि मधय|\d+[.,]?\d* वरषापरवी|\d+[.,]?\d* सकदापरवी|\d+[.,]?\d* तासामधय|\d+[.,]?\d* वरषामधय|\d+[.,]?\d* सकदामधय|\d+[.,]?\d* स परवी|\d+[.,]?\d* स मधय)$");
    ld_known := [lit "मागील आठवडा";
    lit "मागील महिना";
    lit "पढील आठवडा";
    lit "पढील महिना";
    lit "या मिनिटात";
    lit "मागील वरष";
    lit "पढील वरष";
    lit "हा आठवडा";
    lit "हा महिना";
    lit "जानवारी";
    lit "फबरवारी";
    lit "ऑकटोबर";
    lit "नोवहबर";
    lit "मगळवार";
    lit "रविवार";
    lit "शकरवार";
    lit "शनिवार";
    lit "सोमवार";
    lit "आठवडा";
    lit "एपरिल";
    lit "गरवार";
    lit "डिसबर";
    lit "तासात";
    lit "बधवार";
    lit "महिना";
    lit "मिनिट";
    lit "सपटबर";
    lit "ह वरष";
    lit "आतता";
    lit "उदया";
    lit "एपरि";
    lit "ऑकटो";
    lit "ऑगसट";
    lit "दिवस";
    lit "नोवह";
    lit "मारच";
    lit "gmt";
    lit "utc";
    lit "काल";
    lit "जान";
    lit "डिस";
    lit "तास";
    lit "फबर";
    lit "मगळ";
    lit "रवि";
    lit "वरष";
    lit "शकर";
    lit "शनि";
    lit "सकद";
    lit "सपट";
    lit "सोम";
    lit "am";
    lit "pm";
    lit "आज";
    lit "ऑग";
    lit "गर";
    lit "जन";
    lit "जल";
    lit "बध";
    lit "मउ";
    lit "मप";
    lit "मि";
    lit " ";
    lit "'";
    lit "+";
    lit ",";
    lit "-";
    lit ".";
    lit "/";
    lit ":";
    lit ";";
    lit "@";
    lit "[";
    lit "]";
    lit "z";
    lit "|";
    lit "म";
    lit "स"] |}.

(** ms.go:14-142 *)
Definition loc_ms : locale := Eval vm_compute in
  {| ld_name := lit "ms"; ld_order := lit "DMY"; ld_nospacing := false; ld_splitter := 0;
    ld_charset := runes (lit "bcdefghijklnorstuvz");
    ld_abbr := [];
    ld_simpl := [];
    ld_trans := [(lit "september", [lit "september"]);
    (lit "disember", [lit "december"]);
    (lit "februari", [lit "february"]);
    (lit "november", [lit "november"]);
    (lit "januari", [lit "january"]);
    (lit "oktober", [lit "october"]);
    (lit "jumaat", [lit "friday"]);
    (lit "khamis", [lit "thursday"]);
    (lit "minggu", [lit "week"]);
    (lit "selasa", [lit "tuesday"]);
    (lit "april", [lit "april"]);
    (lit "bulan", [lit "month"]);
    (lit "isnin", [lit "monday"]);
    (lit "julai", [lit "july"]);
    (lit "minit", [lit "minute"]);
    (lit "sabtu", [lit "saturday"]);
    (lit "tahun", [lit "year"]);
    (lit "ahad", [lit "sunday"]);
    (lit "hari", [lit "day"]);
    (lit "ogos", [lit "august"]);
    (lit "rabu", [lit "wednesday"]);
    (lit "saat", [lit "second"]);
    (lit "ahd", [lit "sunday"]);
    (lit "apr", [lit "april"]);
    (lit "bln", [lit "month"]);
    (lit "dis", [lit "december"]);
    (lit "feb", [lit "february"]);
    (lit "gmt", [lit "gmt"]);
    (lit "isn", [lit "monday"]);
    (lit "jam", [lit "hour"]);
    (lit "jan", [lit "january"]);
    (lit "jul", [lit "july"]);
    (lit "jum", [lit "friday"]);
    (lit "jun", [lit "june"]);
    (lit "kha", [lit "thursday"]);
    (lit "mac", [lit "march"]);
    (lit "mei", [lit "may"]);
    (lit "mgu", [lit "week"]);
    (lit "min", [lit "minute"]);
    (lit "nov", [lit "november"]);
    (lit "ogo", [lit "august"]);
    (lit "okt", [lit "october"]);
    (lit "ptg", [lit "pm"]);
    (lit "rab", [lit "wednesday"]);
    (lit "sab", [lit "saturday"]);
    (lit "sel", [lit "tuesday"]);
    (lit "sep", [lit "september"]);
    (lit "thn", [lit "year"]);
    (lit "utc", [lit "utc"]);
    (lit "am", [lit "am"]);
    (lit "pg", [lit "am"]);
    (lit "pm", [lit "pm"]);
    (lit " ", [lit " "]);
    (lit "'", [lit ""]);
    (lit "+", [lit "+"]);
    (lit ",", [lit ""]);
    (lit "-", [lit "-"]);
    (lit ".", [lit "."]);
    (lit "/", [lit "/"]);
    (lit ":", [lit ":"]);
    (lit ";", [lit ""]);
    (lit "@", [lit ""]);
    (lit "[", [lit ""]);
    (lit "]", [lit ""]);
    (lit "z", [lit "z"]);
    (lit "|", [lit ""])];
    ld_reltype := [(lit "pada minit ini", lit "0 minute ago");
    (lit "minggu depan", lit "in 1 week");
    (lit "bulan depan", lit "in 1 month");
    (lit "minggu lalu", lit "1 week ago");
    (lit "tahun depan", lit "in 1 year");
    (lit "bulan lalu", lit "1 month ago");
    (lit "minggu ini", lit "0 week ago");
    (lit "tahun lalu", lit "1 year ago");
    (lit "bln depan", lit "in 1 month");
    (lit "bulan ini", lit "0 month ago");
    (lit "mng depan", lit "in 1 week");
    (lit "mng lepas", lit "1 week ago");
    (lit "tahun ini", lit "0 year ago");
    (lit "thn depan", lit "in 1 year");
    (lit "thn lepas", lit "1 year ago");
    (lit "bln lalu", lit "1 month ago");
    (lit "hari ini", lit "0 day ago");
    (lit "sekarang", lit "0 second ago");
    (lit "bln ini", lit "0 month ago");
    (lit "jam ini", lit "0 hour ago");
    (lit "mng ini", lit "0 week ago");
    (lit "semalam", lit "1 day ago");
    (lit "thn ini", lit "0 year ago");
    (lit "semlm", lit "1 day ago");
    (lit "esok", lit "in 1 day")];
    ld_relrx := [(rx "(?i)dalam (\d+[.,]?\d*) minggu", lit "in $1 week");
    (rx "(?i)(\d+[.,]?\d*) minggu lalu", lit "$1 week ago");
    (rx "(?i)dalam (\d+[.,]?\d*) bulan", lit "in $1 month");
    (rx "(?i)dalam (\d+[.,]?\d*) minit", lit "in $1 minute");
    (rx "(?i)(\d+[.,]?\d*) bulan lalu", lit "$1 month ago");
    (rx "(?i)(\d+[.,]?\d*) minit lalu", lit "$1 minute ago");
    (rx "(?i)(\d+[.,]?\d*) tahun lalu", lit "$1 year ago");
    (rx "(?i)dalam (\d+[.,]?\d*) hari", lit "in $1 day");
    (rx "(?i)dalam (\d+[.,]?\d*) saat", lit "in $1 year");
    (rx "(?i)(\d+[.,]?\d*) hari lalu", lit "$1 day ago");
    (rx "(?i)(\d+[.,]?\d*) saat lalu", lit "$1 second ago");
    (rx "(?i)dalam (\d+[.,]?\d*) jam", lit "in $1 hour");
    (rx "(?i)dalam (\d+[.,]?\d*) thn", lit "in $1 year");
    (rx "(?i)(\d+[.,]?\d*) bln lalu", lit "$1 month ago");
    (rx "(?i)(\d+[.,]?\d*) jam lalu", lit "$1 hour ago");
    (rx "(?i)(\d+[.,]?\d*) mgu lalu", lit "$1 week ago");
    (rx "(?i)(\d+[.,]?\d*) min lalu", lit "$1 minute ago");
    (rx "(?i)(\d+[.,]?\d*) thn lalu", lit "$1 year ago");
    (rx "(?i)dlm (\d+[.,]?\d*) hari", lit "in $1 day");
    (rx "(?i)dlm (\d+[.,]?\d*) saat", lit "in $1 second");
    (rx "(?i)dlm (\d+[.,]?\d*) bln", lit "in $1 month");
    (rx "(?i)dlm (\d+[.,]?\d*) jam", lit "in $1 hour");
    (rx "(?i)dlm (\d+[.,]?\d*) mgu", lit "in $1 week");
    (rx "(?i)dlm (\d+[.,]?\d*) min", lit "in $1 minute")];
    ld_rx := Some (rx "(?i)(\A|[^\pL\pM\d]|_)(dalam \d+[.,]?\d* minggu|\d+[.,]?\d* minggu lalu|dalam \d+[.,]?\d* bulan|dalam \d+[.,]?\d* minit|\d+[.,]?\d* bulan lalu|\d+[.,]?\d* minit lalu|\d+[.,]?\d* tahun lalu|dalam \d+[.,]?\d* hari|dalam \d+[.,]?\d* saat|\d+[.,]?\d* hari lalu|\d+[.,]?\d* saat lalu|dalam \d+[.,]?\d* jam|dalam \d+[.,]?\d* thn|\d+[.,]?\d* bln lalu|\d+[.,]?\d* jam lalu|\d+[.,]?\d* mgu lalu|\d+[.,]?\d* min lalu|\d+[.,]?\d* thn lalu|dlm \d+[.,]?\d* hari|dlm \d+[.,]?\d* saat|dlm \d+[.,]?\d* bln|dlm \d+[.,]?\d* jam|dlm \d+[.,]?\d* mgu|dlm \d+[.,]?\d* min)(\z|[^\pL\pM\d]|_)");
    ld_rx_exact := Some (rx "(?i)^(dalam \d+[.,]?\d* minggu|\d+[.,]?\d* minggu lalu|dalam \d+[.,]?\d* bulan|dalam \d+[.,]?\d* minit|\d+[.,]?\d* bulan lalu|\d+[.,]?\d* minit lalu|\d+[.,]?\d* tahun lalu|dalam \d+[.,]?\d* hari|dalam \d+[.,]?\d* saat|\d+[.,]?\d* hari lalu|\d+[.,]?\d* saat lalu|dalam \d+[.,]?\d* jam|dalam \d+[.,]?\d* thn|\d+[.,]?\d* bln lalu|\d+[.,]?\d* jam lalu|\d+[.,]?\d* mgu lalu|\d+[.,]?\d* min lalu|\d+[.,]?\d* thn lalu|dlm \d+[.,]?\d* hari|dlm \d+[.,]?\d* saat|dlm \d+[.,]?\d* bln|dlm \d+[.,]?\d* jam|dlm \d+[.,]?\d* mgu|dlm \d+[.,]?\d* min)$");
    ld_known := [lit "pada minit ini";
    lit "minggu depan";
    lit "bulan depan";
    lit "minggu lalu";
    lit "tahun depan";
    lit "bulan lalu";
    lit "minggu ini";
    lit "tahun lalu";
    lit "bln depan";
    lit "bulan ini";
    lit "mng depan";
    lit "mng lepas";
    lit "september";
    lit "tahun ini";
    lit "thn depan";
    lit "thn lepas";
    lit "bln lalu";
    lit "disember";
    lit "februari";
    lit "hari ini";
    lit "november";
    lit "sekarang";
    lit "bln ini";
    lit "jam ini";
    lit "januari";
    lit "mng ini";
    lit "oktober";
    lit "semalam";
    lit "thn ini";
    lit "jumaat";
    lit "khamis";
    lit "minggu";
    lit "selasa";
    lit "april";
    lit "bulan";
    lit "isnin";
    lit "julai";
    lit "minit";
    lit "sabtu";
    lit "semlm";
    lit "tahun";
    lit "ahad";
    lit "esok";
    lit "hari";
    lit "ogos";
    lit "rabu";
    lit "saat";
    lit "ahd";
    lit "apr";
    lit "bln";
    lit "dis";
    lit "feb";
    lit "gmt";
    lit "isn";
    lit "jam";
    lit "jan";
    lit "jul";
    lit "jum";
    lit "jun";
    lit "kha";
    lit "mac";
    lit "mei";
    lit "mgu";
    lit "min";
    lit "nov";
    lit "ogo";
    lit "okt";
    lit "ptg";
    lit "rab";
    lit "sab";
    lit "sel";
    lit "sep";
    lit "thn";
    lit "utc";
    lit "am";
    lit "pg";
    lit "pm";
    lit " ";
    lit "'";
    lit "+";
    lit ",";
    lit "-";
    lit ".";
    lit "/";
    lit ":";
    lit ";";
    lit "@";
    lit "[";
    lit "]";
    lit "z";
    lit "|"] |}.

(** ms.go:144-147 *)
Definition own_ms_BN : locale := Eval vm_compute in
  {| ld_name := lit "ms-BN"; ld_order := lit "DMY"; ld_nospacing := false; ld_splitter := 0;
    ld_charset := runes (lit "");
    ld_abbr := [];
    ld_simpl := [];
    ld_trans := [];
    ld_reltype := [];
    ld_relrx := [];
    ld_rx := None;
    ld_rx_exact := None;
    ld_known := [] |}.
Definition loc_ms_BN : locale := merge loc_ms own_ms_BN.

(** ms.go:149-152 *)
Definition own_ms_SG : locale := Eval vm_compute in
  {| ld_name := lit "ms-SG"; ld_order := lit "DMY"; ld_nospacing := false; ld_splitter := 0;
    ld_charset := runes (lit "");
    ld_abbr := [];
    ld_simpl := [];
    ld_trans := [];
    ld_reltype := [];
    ld_relrx := [];
    ld_rx := None;
    ld_rx_exact := None;
    ld_known := [] |}.
Definition loc_ms_SG : locale := merge loc_ms own_ms_SG.

(** mt.go:12-105 *)
Definition loc_mt : locale := Eval vm_compute in
  {| ld_name := lit "mt"; ld_order := lit "DMY"; ld_nospacing := false; ld_splitter := 0;
    ld_charset := runes (lit "-bcdefghijklnorstuvwxzċġħ");
    ld_abbr := [];
    ld_simpl := [];
    ld_trans := [(lit "il-gimgħa", [lit "friday"]);
    (lit "it-tlieta", [lit "tuesday"]);
    (lit "settembru", [lit "september"]);
    (lit "dicembru", [lit "december"]);
    (lit "il-ħamis", [lit "thursday"]);
    (lit "it-tnejn", [lit "monday"]);
    (lit "l-erbgħa", [lit "wednesday"]);
    (lit "novembru", [lit "november"]);
    (lit "awwissu", [lit "august"]);
    (lit "il-ħadd", [lit "sunday"]);
    (lit "is-sibt", [lit "saturday"]);
    (lit "ottubru", [lit "october"]);
    (lit "sekonda", [lit "second"]);
    (lit "gimgħa", [lit "week"]);
    (lit "jannar", [lit "january"]);
    (lit "minuta", [lit "minute"]);
    (lit "siegħa", [lit "hour"]);
    (lit "april", [lit "april"]);
    (lit "gunju", [lit "june"]);
    (lit "lulju", [lit "july"]);
    (lit "marzu", [lit "march"]);
    (lit "mejju", [lit "may"]);
    (lit "xahar", [lit "month"]);
    (lit "frar", [lit "february"]);
    (lit "sena", [lit "year"]);
    (lit "apr", [lit "april"]);
    (lit "aww", [lit "august"]);
    (lit "dic", [lit "december"]);
    (lit "erb", [lit "wednesday"]);
    (lit "fra", [lit "february"]);
    (lit "gim", [lit "friday"]);
    (lit "gmt", [lit "gmt"]);
    (lit "gun", [lit "june"]);
    (lit "jan", [lit "january"]);
    (lit "jum", [lit "day"]);
    (lit "lul", [lit "july"]);
    (lit "mar", [lit "march"]);
    (lit "mej", [lit "may"]);
    (lit "nov", [lit "november"]);
    (lit "ott", [lit "october"]);
    (lit "set", [lit "september"]);
    (lit "sib", [lit "saturday"]);
    (lit "tli", [lit "tuesday"]);
    (lit "tne", [lit "monday"]);
    (lit "utc", [lit "utc"]);
    (lit "ħad", [lit "sunday"]);
    (lit "ħam", [lit "thursday"]);
    (lit "am", [lit "am"]);
    (lit "pm", [lit "pm"]);
    (lit " ", [lit " "]);
    (lit "'", [lit ""]);
    (lit "+", [lit "+"]);
    (lit ",", [lit ""]);
    (lit "-", [lit "-"]);
    (lit ".", [lit "."]);
    (lit "/", [lit "/"]);
    (lit ":", [lit ":"]);
    (lit ";", [lit ""]);
    (lit "@", [lit ""]);
    (lit "[", [lit ""]);
    (lit "]", [lit ""]);
    (lit "z", [lit "z"]);
    (lit "|", [lit ""])];
    ld_reltype := [(lit "il-gimgħa li għaddiet", lit "1 week ago");
    (lit "is-sena li għaddiet", lit "1 year ago");
    (lit "il-gimgħa d-dieħla", lit "in 1 week");
    (lit "ix-xahar id-dieħel", lit "in 1 month");
    (lit "ix-xahar li għadda", lit "1 month ago");
    (lit "is-sena d-dieħla", lit "in 1 year");
    (lit "din il-gimgħa", lit "0 week ago");
    (lit "dan ix-xahar", lit "0 month ago");
    (lit "din is-sena", lit "0 year ago");
    (lit "this minute", lit "0 minute ago");
    (lit "this hour", lit "0 hour ago");
    (lit "ilbieraħ", lit "1 day ago");
    (lit "għada", lit "in 1 day");
    (lit "illum", lit "0 day ago");
    (lit "now", lit "0 second ago")];
    ld_relrx := [(rx "(?i)(\d+[.,]?\d*) sena ilu", lit "$1 year ago");
    (rx "(?i)(\d+[.,]?\d*) snin ilu", lit "$1 year ago")];
    ld_rx := Some (rx "(?i)(\A|[^\pL\pM\d]|_)(\d+[.,]?\d* sena ilu|\d+[.,]?\d* snin ilu)(\z|[^\pL\pM\d]|_)");
    ld_rx_exact := Some (rx "(?i)^(\d+[.,]?\d* sena ilu|\d+[.,]?\d* snin ilu)$");
    ld_known := [lit "il-gimgħa li għaddiet";
    lit "is-sena li għaddiet";
    lit "il-gimgħa d-dieħla";
    lit "ix-xahar id-dieħel";
    lit "ix-xahar li għadda";
    lit "is-sena d-dieħla";
    lit "din il-gimgħa";
    lit "dan ix-xahar";
    lit "din is-sena";
    lit "this minute";
    lit "il-gimgħa";
    lit "it-tlieta";
    lit "settembru";
    lit "this hour";
    lit "dicembru";
    lit "il-ħamis";
    lit "ilbieraħ";
    lit "it-tnejn";
    lit "l-erbgħa";
    lit "novembru";
    lit "awwissu";
    lit "il-ħadd";
    lit "is-sibt";
    lit "ottubru";
    lit "sekonda";
    lit "gimgħa";
    lit "jannar";
    lit "minuta";
    lit "siegħa";
    lit "april";
    lit "gunju";
    lit "għada";
    lit "illum";
    lit "lulju";
    lit "marzu";
    lit "mejju";
    lit "xahar";
    lit "frar";
    lit "sena";
    lit "apr";
    lit "aww";
    lit "dic";
    lit "erb";
    lit "fra";
    lit "gim";
    lit "gmt";
    lit "gun";
    lit "jan";
    lit "jum";
    lit "lul";
    lit "mar";
    lit "mej";
    lit "nov";
    lit "now";
    lit "ott";
    lit "set";
    lit "sib";
    lit "tli";
    lit "tne";
    lit "utc";
    lit "ħad";
    lit "ħam";
    lit "am";
    lit "pm";
    lit " ";
    lit "'";
    lit "+";
    lit ",";
    lit "-";
    lit ".";
    lit "/";
    lit ":";
    lit ";";
    lit "@";
    lit "[";
    lit "]";
    lit "z";
    lit "|"] |}.

(** mua.go:10-98 *)
Definition loc_mua : locale := Eval vm_compute in
  {| ld_name := lit "mua"; ld_order := lit "DMY"; ld_nospacing := false; ld_splitter := 0;
    ld_charset := runes (lit "/bcdefghijklnorstuwxyzãĩŋǝɓɗ");
    ld_abbr := [];
    ld_simpl := [];
    ld_trans := [(lit "cok comme ma laŋ tǝ biŋ", [lit "second"]);
    (lit "cok comme ma laŋne", [lit "minute"]);
    (lit "mamǝŋgwaafahbii", [lit "june"]);
    (lit "zah'nane/ comme", [lit "day"]);
    (lit "madǝǝuutǝbijaŋ", [lit "may"]);
    (lit "cokcwaklaŋne", [lit "february"]);
    (lit "comkaldǝɓlii", [lit "thursday"]);
    (lit "mamǝŋgwaalii", [lit "july"]);
    (lit "fii gwahlle", [lit "november"]);
    (lit "cokcwaklii", [lit "march"]);
    (lit "comzyeɓsuu", [lit "saturday"]);
    (lit "comzyiiɗii", [lit "tuesday"]);
    (lit "fii dǝɓlii", [lit "september"]);
    (lit "fii marfoo", [lit "april"]);
    (lit "fii mundaŋ", [lit "october"]);
    (lit "cok comme", [lit "hour"]);
    (lit "com'yakke", [lit "sunday"]);
    (lit "comgaisuu", [lit "friday"]);
    (lit "comlaaɗii", [lit "monday"]);
    (lit "comkolle", [lit "wednesday"]);
    (lit "fii yuru", [lit "december"]);
    (lit "madǝmbii", [lit "august"]);
    (lit "fii loo", [lit "january"]);
    (lit "comme", [lit "am"]);
    (lit "lilli", [lit "pm"]);
    (lit "luma", [lit "week"]);
    (lit "syii", [lit "year"]);
    (lit "cga", [lit "friday"]);
    (lit "cka", [lit "thursday"]);
    (lit "cki", [lit "march"]);
    (lit "cko", [lit "wednesday"]);
    (lit "cla", [lit "monday"; lit "february"]);
    (lit "cya", [lit "sunday"]);
    (lit "cze", [lit "saturday"]);
    (lit "czi", [lit "tuesday"]);
    (lit "fde", [lit "september"]);
    (lit "fgw", [lit "november"]);
    (lit "fii", [lit "month"]);
    (lit "flo", [lit "january"]);
    (lit "fmf", [lit "april"]);
    (lit "fmu", [lit "october"]);
    (lit "fyu", [lit "december"]);
    (lit "gmt", [lit "gmt"]);
    (lit "mad", [lit "may"]);
    (lit "mam", [lit "august"]);
    (lit "mbi", [lit "june"]);
    (lit "mli", [lit "july"]);
    (lit "utc", [lit "utc"]);
    (lit "am", [lit "am"]);
    (lit "pm", [lit "pm"]);
    (lit " ", [lit " "]);
    (lit "'", [lit ""]);
    (lit "+", [lit "+"]);
    (lit ",", [lit ""]);
    (lit "-", [lit "-"]);
    (lit ".", [lit "."]);
    (lit "/", [lit "/"]);
    (lit ":", [lit ":"]);
    (lit ";", [lit ""]);
    (lit "@", [lit ""]);
    (lit "[", [lit ""]);
    (lit "]", [lit ""]);
    (lit "z", [lit "z"]);
    (lit "|", [lit ""])];
    ld_reltype := [(lit "this minute", lit "0 minute ago");
    (lit "last month", lit "1 month ago");
    (lit "next month", lit "in 1 month");
    (lit "this month", lit "0 month ago");
    (lit "last week", lit "1 week ago");
    (lit "last year", lit "1 year ago");
    (lit "next week", lit "in 1 week");
    (lit "next year", lit "in 1 year");
    (lit "this hour", lit "0 hour ago");
    (lit "this week", lit "0 week ago");
    (lit "this year", lit "0 year ago");
    (lit "tǝ'nahko", lit "0 day ago");
    (lit "tǝ'nane", lit "in 1 day");
    (lit "tǝsoo", lit "1 day ago");
    (lit "now", lit "0 second ago")];
    ld_relrx := [];
    ld_rx := None;
    ld_rx_exact := None;
    ld_known := [lit "cok comme ma laŋ tǝ biŋ";
    lit "cok comme ma laŋne";
    lit "mamǝŋgwaafahbii";
    lit "zah'nane/ comme";
    lit "madǝǝuutǝbijaŋ";
    lit "cokcwaklaŋne";
    lit "comkaldǝɓlii";
    lit "mamǝŋgwaalii";
    lit "fii gwahlle";
    lit "this minute";
    lit "cokcwaklii";
    lit "comzyeɓsuu";
    lit "comzyiiɗii";
    lit "fii dǝɓlii";
    lit "fii marfoo";
    lit "fii mundaŋ";
    lit "last month";
    lit "next month";
    lit "this month";
    lit "cok comme";
    lit "com'yakke";
    lit "comgaisuu";
    lit "comlaaɗii";
    lit "last week";
    lit "last year";
    lit "next week";
    lit "next year";
    lit "this hour";
    lit "this week";
    lit "this year";
    lit "comkolle";
    lit "fii yuru";
    lit "madǝmbii";
    lit "tǝ'nahko";
    lit "fii loo";
    lit "tǝ'nane";
    lit "comme";
    lit "lilli";
    lit "tǝsoo";
    lit "luma";
    lit "syii";
    lit "cga";
    lit "cka";
    lit "cki";
    lit "cko";
    lit "cla";
    lit "cya";
    lit "cze";
    lit "czi";
    lit "fde";
    lit "fgw";
    lit "fii";
    lit "flo";
    lit "fmf";
    lit "fmu";
    lit "fyu";
    lit "gmt";
    lit "mad";
    lit "mam";
    lit "mbi";
    lit "mli";
    lit "now";
    lit "utc";
    lit "am";
    lit "pm";
    lit " ";
    lit "'";
    lit "+";
    lit ",";
    lit "-";
    lit ".";
    lit "/";
    lit ":";
    lit ";";
    lit "@";
    lit "[";
    lit "]";
    lit "z";
    lit "|"] |}.

(** my.go:12-108 *)
Definition loc_my : locale := Eval vm_compute in
  {| ld_name := lit "my"; ld_order := lit "DMY"; ld_nospacing := false; ld_splitter := 0;
    ld_charset := runes (lit "cgtuzကခဂငစဇညတဒဓနပဖဗဘမယရလဝသဟအဤဧဩါာိီုူေဲံ့း္်ျြွှ");
    ld_abbr := [];
    ld_simpl := [];
    ld_trans := [(lit "ကြာသပတေး", [lit "thursday"]);
    (lit "ဖေဖောဝါရ", [lit "february"]);
    (lit "အောကတဘာ", [lit "october"]);
    (lit "စကတငဘာ", [lit "september"]);
    (lit "ဇနနဝါရ", [lit "january"]);
    (lit "တနငဂနေ", [lit "sunday"]);
    (lit "သောကြာ", [lit "friday"]);
    (lit "တနငလာ", [lit "monday"]);
    (lit "ဒဇငဘာ", [lit "december"]);
    (lit "နဝငဘာ", [lit "november"]);
    (lit "ဗဒဓဟး", [lit "wednesday"]);
    (lit "စကကန", [lit "second"]);
    (lit "အငဂါ", [lit "tuesday"]);
    (lit "အောက", [lit "october"]);
    (lit "gmt", [lit "gmt"]);
    (lit "utc", [lit "utc"]);
    (lit "စနေ", [lit "saturday"]);
    (lit "ဇလင", [lit "july"]);
    (lit "ညနေ", [lit "pm"]);
    (lit "နနက", [lit "am"]);
    (lit "နာရ", [lit "hour"]);
    (lit "မနစ", [lit "minute"]);
    (lit "ဧပြ", [lit "april"]);
    (lit "ဩဂတ", [lit "august"]);
    (lit "am", [lit "am"]);
    (lit "pm", [lit "pm"]);
    (lit "စက", [lit "september"]);
    (lit "ဇန", [lit "june"; lit "january"]);
    (lit "နစ", [lit "year"]);
    (lit "ပတ", [lit "week"]);
    (lit "ဖေ", [lit "february"]);
    (lit "မတ", [lit "march"]);
    (lit "မေ", [lit "may"]);
    (lit "ရက", [lit "day"]);
    (lit " ", [lit " "]);
    (lit "'", [lit ""]);
    (lit "+", [lit "+"]);
    (lit ",", [lit ""]);
    (lit "-", [lit "-"]);
    (lit ".", [lit "."]);
    (lit "/", [lit "/"]);
    (lit ":", [lit ":"]);
    (lit ";", [lit ""]);
    (lit "@", [lit ""]);
    (lit "[", [lit ""]);
    (lit "]", [lit ""]);
    (lit "z", [lit "z"]);
    (lit "|", [lit ""]);
    (lit "ဇ", [lit "july"]);
    (lit "ဒ", [lit "december"]);
    (lit "န", [lit "november"]);
    (lit "လ", [lit "month"]);
    (lit "ဧ", [lit "april"]);
    (lit "ဩ", [lit "august"])];
    ld_reltype := [(lit "ပြးခသည သတငးပတ", lit "1 week ago");
    (lit "လာမည သတငးပတ", lit "in 1 week");
    (lit "ယခ သတငးပတ", lit "0 week ago");
    (lit "ပြးခသညလ", lit "1 month ago");
    (lit "မနကဖြန", lit "in 1 day");
    (lit "လာမညနစ", lit "in 1 year");
    (lit "ယမနနစ", lit "1 year ago");
    (lit "လာမညလ", lit "in 1 month");
    (lit "ဤအချန", lit "0 hour ago");
    (lit "မနေက", lit "1 day ago");
    (lit "ယခနစ", lit "0 year ago");
    (lit "ဤမနစ", lit "0 minute ago");
    (lit "ယခလ", lit "0 month ago");
    (lit "ယနေ", lit "0 day ago");
    (lit "ယခ", lit "0 second ago")];
    ld_relrx := [(rx "(?i)ပြးခသည (\d+[.,]?\d*) စကကန", lit "$1 second ago");
    (rx "(?i)ပြးခသည (\d+[.,]?\d*) နာရ", lit "$1 hour ago");
    (rx "(?i)ပြးခသည (\d+[.,]?\d*) မနစ", lit "$1 minute ago");
    (rx "(?i)ပြးခသည (\d+[.,]?\d*) နစ", lit "$1 year ago");
    (rx "(?i)ပြးခသည (\d+[.,]?\d*) ပတ", lit "$1 week ago");
    (rx "(?i)ပြးခသည (\d+[.,]?\d*) ရက", lit "$1 day ago");
    (rx "(?i)(\d+[.,]?\d*) စကကနအတငး", lit "in $1 second");
    (rx "(?i)ပြးခသည (\d+[.,]?\d*) လ", lit "$1 month ago");
    (rx "(?i)(\d+[.,]?\d*) နာရအတငး", lit "in $1 hour");
    (rx "(?i)(\d+[.,]?\d*) မနစအတငး", lit "in $1 minute");
    (rx "(?i)(\d+[.,]?\d*) နစအတငး", lit "in $1 year");
    (rx "(?i)(\d+[.,]?\d*) ပတအတငး", lit "in $1 week");
    (rx "(?i)(\d+[.,]?\d*) ရကအတငး", lit "in $1 day");
    (rx "(?i)(\d+[.,]?\d*) လအတငး", lit "in $1 month")];
    ld_rx := Some (rx "(?i)(\A|[^\pL\pM\d]|_)(ပြးခသည \d+[.,]?\d* စကကန|ပြးခသည \d+[.,]?\d* နာရ|ပြးခသည \d+[.,]?\d* မနစ|ပြးခသည \d+[.,]?\d* နစ|ပြးခသည \d+[.,]?\d* ပတ|ပြးခသည \d+[.,]?\d* ရက|\d+[.,]?\d* စကကနအတငး|ပြးခသည \d+[.,]?\d* လ|\d+[.,]?\d* နာရအတငး|\d+[.,]?\d* မနစအတငး|\d+[.,]?\d* နစအတငး|\d+[.,]?\d* ပတအတငး|\d+[.,]?\d* ရကအတငး|\d+[.,]?\d* လအတငး)(\z|[^\pL\pM\d]|_)");
    ld_rx_exact := Some (rx "(?i)^(ပြးခသည \d+[.,]?\d* စကကန|ပြးခသည \d+[.,]?\d* နာရ|ပြးခသည \d+[.,]?\d* မနစ|ပြးခသည \d+[.,]?\d* နစ|ပြးခသည \d+[.,]?\d* ပတ|ပြးခသည \d+[.,]?\d* ရက|\d+[.,]?\d* စကကနအတငး|ပြးခသည \d+[.,]?\d* လ|\d+[.,]?\d* နာရအတငး|\d+[.,]?\d* မနစအတငး|\d+[.,]?\d* နစအတငး|\d+[.,]?\d* ပတအတငး|\d+[.,]?\d* ရကအတငး|\d+[.,]?\d* လအတငး)$");
    ld_known := [lit "ပြးခသည သတငးပတ";
    lit "လာမည သတငးပတ";
    lit "ယခ သတငးပတ";
    lit "ကြာသပတေး";
    lit "ဖေဖောဝါရ";
    lit "ပြးခသညလ";
    lit "အောကတဘာ";
    lit "စကတငဘာ";
    lit "ဇနနဝါရ";
    lit "တနငဂနေ";
    lit "မနကဖြန";
    lit "လာမညနစ";
    lit "သောကြာ";
    lit "တနငလာ";
    lit "ဒဇငဘာ";
    lit "နဝငဘာ";
    lit "ဗဒဓဟး";
    lit "ယမနနစ";
    lit "လာမညလ";
    lit "ဤအချန";
    lit "စကကန";
    lit "မနေက";
    lit "ယခနစ";
    lit "အငဂါ";
    lit "အောက";
    lit "ဤမနစ";
    lit "gmt";
    lit "utc";
    lit "စနေ";
    lit "ဇလင";
    lit "ညနေ";
    lit "နနက";
    lit "နာရ";
    lit "မနစ";
    lit "ယခလ";
    lit "ယနေ";
    lit "ဧပြ";
    lit "ဩဂတ";
    lit "am";
    lit "pm";
    lit "စက";
    lit "ဇန";
    lit "နစ";
    lit "ပတ";
    lit "ဖေ";
    lit "မတ";
    lit "မေ";
    lit "ယခ";
    lit "ရက";
    lit " ";
    lit "'";
    lit "+";
    lit ",";
    lit "-";
    lit ".";
    lit "/";
    lit ":";
    lit ";";
    lit "@";
    lit "[";
    lit "]";
    lit "z";
    lit "|";
    lit "ဇ";
    lit "ဒ";
    lit "န";
    lit "လ";
    lit "ဧ";
    lit "ဩ"] |}.

(** mzn.go:12-100 *)
Definition loc_mzn : locale := Eval vm_compute in
  {| ld_name := lit "mzn"; ld_order := lit "YMD"; ld_nospacing := false; ld_splitter := 0;
    ld_charset := runes (lit "cdefghinorstuwzآئابتثدرزسعفقلمنهويَِپژکگی");
    ld_abbr := [];
    ld_simpl := [];
    ld_trans := [(lit "سپتامبر", [lit "september"]);
    (lit "دسامبر", [lit "december"]);
    (lit "نوامبر", [lit "november"]);
    (lit "ژانویه", [lit "january"]);
    (lit "اوریل", [lit "april"]);
    (lit "اکتبر", [lit "october"]);
    (lit "ثانیه", [lit "second"]);
    (lit "دقیقه", [lit "minute"]);
    (lit "فوریه", [lit "february"]);
    (lit "ژويیه", [lit "july"]);
    (lit "ساعت", [lit "hour"]);
    (lit "مارس", [lit "march"]);
    (lit "هفته", [lit "week"]);
    (lit "ژوين", [lit "june"]);
    (lit "fri", [lit "friday"]);
    (lit "gmt", [lit "gmt"]);
    (lit "mon", [lit "monday"]);
    (lit "sat", [lit "saturday"]);
    (lit "sun", [lit "sunday"]);
    (lit "thu", [lit "thursday"]);
    (lit "tue", [lit "tuesday"]);
    (lit "utc", [lit "utc"]);
    (lit "wed", [lit "wednesday"]);
    (lit "اوت", [lit "august"]);
    (lit "دقه", [lit "minute"]);
    (lit "روز", [lit "day"]);
    (lit "سال", [lit "year"]);
    (lit "ماه", [lit "month"]);
    (lit "am", [lit "am"]);
    (lit "pm", [lit "pm"]);
    (lit "مه", [lit "may"]);
    (lit " ", [lit " "]);
    (lit "'", [lit ""]);
    (lit "+", [lit "+"]);
    (lit ",", [lit ""]);
    (lit "-", [lit "-"]);
    (lit ".", [lit "."]);
    (lit "/", [lit "/"]);
    (lit ":", [lit ":"]);
    (lit ";", [lit ""]);
    (lit "@", [lit ""]);
    (lit "[", [lit ""]);
    (lit "]", [lit ""]);
    (lit "z", [lit "z"]);
    (lit "|", [lit ""])];
    ld_reltype := [(lit "this minute", lit "0 minute ago");
    (lit "this hour", lit "0 hour ago");
    (lit "بعدی هفته", lit "in 1 week");
    (lit "قبلی هفته", lit "1 week ago");
    (lit "این هفته", lit "0 week ago");
    (lit "سال دیگه", lit "in 1 year");
    (lit "این ماه", lit "0 month ago");
    (lit "ماه بعد", lit "in 1 month");
    (lit "ماه قبل", lit "1 month ago");
    (lit "پارسال", lit "1 year ago");
    (lit "امروز", lit "0 day ago");
    (lit "امسال", lit "0 year ago");
    (lit "دیروز", lit "1 day ago");
    (lit "فردا", lit "in 1 day");
    (lit "now", lit "0 second ago")];
    ld_relrx := [(rx "(?i)(\d+[.,]?\d*) ثانیه دله", lit "in $1 second");
    (rx "(?i)(\d+[.,]?\d*) ثانیه پیش", lit "$1 second ago");
    (rx "(?i)(\d+[.,]?\d*) دقیقه دله", lit "in $1 minute");
    (rx "(?i)(\d+[.,]?\d*) ساعت دله", lit "in $1 hour");
    (rx "(?i)(\d+[.,]?\d*) ساعت پیش", lit "$1 hour ago");
    (rx "(?i)(\d+[.,]?\d*) هفته دله", lit "in $1 week");
    (rx "(?i)(\d+[.,]?\d*) هفته پیش", lit "$1 week ago");
    (rx "(?i)(\d+[.,]?\d*) دقه دله", lit "in $1 minute");
    (rx "(?i)(\d+[.,]?\d*) دقه پیش", lit "$1 minute ago");
    (rx "(?i)(\d+[.,]?\d*) روز دله", lit "in $1 day");
    (rx "(?i)(\d+[.,]?\d*) روز پیش", lit "$1 day ago");
    (rx "(?i)(\d+[.,]?\d*) سال دله", lit "in $1 year");
    (rx "(?i)(\d+[.,]?\d*) سال پیش", lit "$1 year ago");
    (rx "(?i)(\d+[.,]?\d*) ماه دله", lit "in $1 month");
    (rx "(?i)(\d+[.,]?\d*) ماه پیش", lit "$1 month ago")];
    ld_rx := Some (rx "(?i)(\A|[^\pL\pM\d]|_)(\d+[.,]?\d* ثانیه دله|\d+[.,]?\d* ثانیه پیش|\d+[.,]?\d* دقیقه دله|\d+[.,]?\d* ساعت دله|\d+[.,]?\d* ساعت پیش|\d+[.,]?\d* هفته دله|\d+[.,]?\d* هفته پیش|\d+[.,]?\d* دقه دله|\d+[.,]?\d* دقه پیش|\d+[.,]?\d* روز دله|\d+[.,]?\d* روز پیش|\d+[.,]?\d* سال دله|\d+[.,]?\d* سال پیش|\d+[.,]?\d* ماه دله|\d+[.,]?\d* ماه پیش)(\z|[^\pL\pM\d]|_)");
    ld_rx_exact := Some (rx "(?i)^(\d+[.,]?\d* ثانیه دله|\d+[.,]?\d* ثانیه پیش|\d+[.,]?\d* دقیقه دله|\d+[.,]?\d* ساعت دله|\d+[.,]?\d* ساعت پیش|\d+[.,]?\d* هفته دله|\d+[.,]?\d* هفته پیش|\d+[.,]?\d* دقه دله|\d+[.,]?\d* دقه پیش|\d+[.,]?\d* روز دله|\d+[.,]?\d* روز پیش|\d+[.,]?\d* سال دله|\d+[.,]?\d* سال پیش|\d+[.,]?\d* ماه دله|\d+[.,]?\d* ماه پیش)$");
    ld_known := [lit "this minute";
    lit "this hour";
    lit "بعدی هفته";
    lit "قبلی هفته";
    lit "این هفته";
    lit "سال دیگه";
    lit "این ماه";
    lit "سپتامبر";
    lit "ماه بعد";
    lit "ماه قبل";
    lit "دسامبر";
    lit "نوامبر";
    lit "پارسال";
    lit "ژانویه";
    lit "امروز";
    lit "امسال";
    lit "اوریل";
    lit "اکتبر";
    lit "ثانیه";
    lit "دقیقه";
    lit "دیروز";
    lit "فوریه";
    lit "ژويیه";
    lit "ساعت";
    lit "فردا";
    lit "مارس";
    lit "هفته";
    lit "ژوين";
    lit "fri";
    lit "gmt";
    lit "mon";
    lit "now";
    lit "sat";
    lit "sun";
    lit "thu";
    lit "tue";
    lit "utc";
    lit "wed";
    lit "اوت";
    lit "دقه";
    lit "روز";
    lit "سال";
    lit "ماه";
    lit "am";
    lit "pm";
    lit "مه";
    lit " ";
    lit "'";
    lit "+";
    lit ",";
    lit "-";
    lit ".";
    lit "/";
    lit ":";
    lit ";";
    lit "@";
    lit "[";
    lit "]";
    lit "z";
    lit "|"] |}.

(** naq.go:10-99 *)
Definition loc_naq : locale := Eval vm_compute in
  {| ld_name := lit "naq"; ld_order := lit "DMY"; ld_nospacing := false; ld_splitter := 0;
    ld_charset := runes (lit "bcdefghijklnorstuvwxyzâôûǀǁǂǃ");
    ld_abbr := [];
    ld_simpl := [];
    ld_trans := [(lit "taraǀkhuumuǁkhab", [lit "september"]);
    (lit "aoǁkhuumuǁkhab", [lit "august"]);
    (lit "dondertaxtsees", [lit "thursday"]);
    (lit "satertaxtsees", [lit "saturday"]);
    (lit "denstaxtsees", [lit "tuesday"]);
    (lit "fraitaxtsees", [lit "friday"]);
    (lit "hoasoreǁkhab", [lit "december"]);
    (lit "wunstaxtsees", [lit "wednesday"]);
    (lit "mantaxtsees", [lit "monday"]);
    (lit "sontaxtsees", [lit "sunday"]);
    (lit "ǀkhuuǁkhab", [lit "march"]);
    (lit "ǂnuǁnaiseb", [lit "october"]);
    (lit "ǃhoaǂkhaib", [lit "april"]);
    (lit "ǃkhanǀgoab", [lit "february"]);
    (lit "ǀhooǂgaeb", [lit "november"]);
    (lit "ǂkhoesaob", [lit "july"]);
    (lit "ǃkhaitsab", [lit "may"]);
    (lit "gamaǀaeb", [lit "june"]);
    (lit "ǁgoagas", [lit "am"]);
    (lit "ǃkhanni", [lit "january"]);
    (lit "wekheb", [lit "week"]);
    (lit "kurib", [lit "year"]);
    (lit "tsees", [lit "day"]);
    (lit "ǀgaub", [lit "second"]);
    (lit "ǁkhab", [lit "month"]);
    (lit "ǃuias", [lit "pm"]);
    (lit "haib", [lit "minute"]);
    (lit "iiri", [lit "hour"]);
    (lit "apr", [lit "april"]);
    (lit "aug", [lit "august"]);
    (lit "dec", [lit "december"]);
    (lit "feb", [lit "february"]);
    (lit "gmt", [lit "gmt"]);
    (lit "jan", [lit "january"]);
    (lit "jul", [lit "july"]);
    (lit "jun", [lit "june"]);
    (lit "mar", [lit "march"]);
    (lit "may", [lit "may"]);
    (lit "nov", [lit "november"]);
    (lit "oct", [lit "october"]);
    (lit "sat", [lit "saturday"]);
    (lit "sep", [lit "september"]);
    (lit "son", [lit "sunday"]);
    (lit "utc", [lit "utc"]);
    (lit "am", [lit "am"]);
    (lit "de", [lit "tuesday"]);
    (lit "do", [lit "thursday"]);
    (lit "fr", [lit "friday"]);
    (lit "ma", [lit "monday"]);
    (lit "pm", [lit "pm"]);
    (lit "wu", [lit "wednesday"]);
    (lit " ", [lit " "]);
    (lit "'", [lit ""]);
    (lit "+", [lit "+"]);
    (lit ",", [lit ""]);
    (lit "-", [lit "-"]);
    (lit ".", [lit "."]);
    (lit "/", [lit "/"]);
    (lit ":", [lit ":"]);
    (lit ";", [lit ""]);
    (lit "@", [lit ""]);
    (lit "[", [lit ""]);
    (lit "]", [lit ""]);
    (lit "z", [lit "z"]);
    (lit "|", [lit ""])];
    ld_reltype := [(lit "this minute", lit "0 minute ago");
    (lit "last month", lit "1 month ago");
    (lit "next month", lit "in 1 month");
    (lit "this month", lit "0 month ago");
    (lit "last week", lit "1 week ago");
    (lit "last year", lit "1 year ago");
    (lit "next week", lit "in 1 week");
    (lit "next year", lit "in 1 year");
    (lit "this hour", lit "0 hour ago");
    (lit "this week", lit "0 week ago");
    (lit "this year", lit "0 year ago");
    (lit "yesterday", lit "1 day ago");
    (lit "tomorrow", lit "in 1 day");
    (lit "neetsee", lit "0 day ago");
    (lit "now", lit "0 second ago")];
    ld_relrx := [];
    ld_rx := None;
    ld_rx_exact := None;
    ld_known := [lit "taraǀkhuumuǁkhab";
    lit "aoǁkhuumuǁkhab";
    lit "dondertaxtsees";
    lit "satertaxtsees";
    lit "denstaxtsees";
    lit "fraitaxtsees";
    lit "hoasoreǁkhab";
    lit "wunstaxtsees";
    lit "mantaxtsees";
    lit "sontaxtsees";
    lit "this minute";
    lit "last month";
    lit "next month";
    lit "this month";
    lit "ǀkhuuǁkhab";
    lit "ǂnuǁnaiseb";
    lit "ǃhoaǂkhaib";
    lit "ǃkhanǀgoab";
    lit "last week";
    lit "last year";
    lit "next week";
    lit "next year";
    lit "this hour";
    lit "this week";
    lit "this year";
    lit "yesterday";
    lit "ǀhooǂgaeb";
    lit "ǂkhoesaob";
    lit "ǃkhaitsab";
    lit "gamaǀaeb";
    lit "tomorrow";
    lit "neetsee";
    lit "ǁgoagas";
    lit "ǃkhanni";
    lit "wekheb";
    lit "kurib";
    lit "tsees";
    lit "ǀgaub";
    lit "ǁkhab";
    lit "ǃuias";
    lit "haib";
    lit "iiri";
    lit "apr";
    lit "aug";
    lit "dec";
    lit "feb";
    lit "gmt";
    lit "jan";
    lit "jul";
    lit "jun";
    lit "mar";
    lit "may";
    lit "nov";
    lit "now";
    lit "oct";
    lit "sat";
    lit "sep";
    lit "son";
    lit "utc";
    lit "am";
    lit "de";
    lit "do";
    lit "fr";
    lit "ma";
    lit "pm";
    lit "wu";
    lit " ";
    lit "'";
    lit "+";
    lit ",";
    lit "-";
    lit ".";
    lit "/";
    lit ":";
    lit ";";
    lit "@";
    lit "[";
    lit "]";
    lit "z";
    lit "|"] |}.

(** nb.go:13-158 *)
Definition loc_nb : locale := Eval vm_compute in
  {| ld_name := lit "nb"; ld_order := lit "DMY"; ld_nospacing := false; ld_splitter := 0;
    ld_charset := runes (lit "bcdefgijklnorstuvzåø");
    ld_abbr := [];
    ld_simpl := [];
    ld_trans := [(lit "september", [lit "september"]);
    (lit "desember", [lit "december"]);
    (lit "november", [lit "november"]);
    (lit "februar", [lit "february"]);
    (lit "oktober", [lit "october"]);
    (lit "tirsdag", [lit "tuesday"]);
    (lit "torsdag", [lit "thursday"]);
    (lit "august", [lit "august"]);
    (lit "fredag", [lit "friday"]);
    (lit "januar", [lit "january"]);
    (lit "lørdag", [lit "saturday"]);
    (lit "mandag", [lit "monday"]);
    (lit "minutt", [lit "minute"]);
    (lit "onsdag", [lit "wednesday"]);
    (lit "sekund", [lit "second"]);
    (lit "søndag", [lit "sunday"]);
    (lit "april", [lit "april"]);
    (lit "dager", [lit "day"]);
    (lit "maned", [lit "month"]);
    (lit "siden", [lit "ago"]);
    (lit "timer", [lit "hour"]);
    (lit "juli", [lit "july"]);
    (lit "juni", [lit "june"]);
    (lit "mars", [lit "march"]);
    (lit "time", [lit "hour"]);
    (lit "uker", [lit "week"]);
    (lit "apr", [lit "april"]);
    (lit "aug", [lit "august"]);
    (lit "dag", [lit "day"]);
    (lit "des", [lit "december"]);
    (lit "feb", [lit "february"]);
    (lit "fre", [lit "friday"]);
    (lit "gmt", [lit "gmt"]);
    (lit "jan", [lit "january"]);
    (lit "jul", [lit "july"]);
    (lit "jun", [lit "june"]);
    (lit "lør", [lit "saturday"]);
    (lit "mai", [lit "may"]);
    (lit "man", [lit "monday"]);
    (lit "mar", [lit "march"]);
    (lit "min", [lit "minute"]);
    (lit "mnd", [lit "month"]);
    (lit "nov", [lit "november"]);
    (lit "okt", [lit "october"]);
    (lit "ons", [lit "wednesday"]);
    (lit "sek", [lit "second"]);
    (lit "sep", [lit "september"]);
    (lit "søn", [lit "sunday"]);
    (lit "tir", [lit "tuesday"]);
    (lit "tor", [lit "thursday"]);
    (lit "uke", [lit "week"]);
    (lit "utc", [lit "utc"]);
    (lit "am", [lit "am"]);
    (lit "ar", [lit "year"]);
    (lit "md", [lit "month"]);
    (lit "om", [lit "in"]);
    (lit "pm", [lit "pm"]);
    (lit " ", [lit " "]);
    (lit "'", [lit ""]);
    (lit "+", [lit "+"]);
    (lit ",", [lit ""]);
    (lit "-", [lit "-"]);
    (lit ".", [lit "."]);
    (lit "/", [lit "/"]);
    (lit ":", [lit ":"]);
    (lit ";", [lit ""]);
    (lit "@", [lit ""]);
    (lit "[", [lit ""]);
    (lit "]", [lit ""]);
    (lit "d", [lit "day"]);
    (lit "m", [lit "minute"]);
    (lit "s", [lit "second"]);
    (lit "t", [lit "hour"]);
    (lit "u", [lit "week"]);
    (lit "z", [lit "z"]);
    (lit "|", [lit ""])];
    ld_reltype := [(lit "dette minuttet", lit "0 minute ago");
    (lit "denne maneden", lit "0 month ago");
    (lit "forrige maned", lit "1 month ago");
    (lit "denne timen", lit "0 hour ago");
    (lit "forrige uke", lit "1 week ago");
    (lit "neste maned", lit "in 1 month");
    (lit "denne uken", lit "0 week ago");
    (lit "forrige md", lit "1 month ago");
    (lit "neste uke", lit "in 1 week");
    (lit "denne md", lit "0 month ago");
    (lit "i morgen", lit "in 1 day");
    (lit "neste ar", lit "in 1 year");
    (lit "neste md", lit "in 1 month");
    (lit "i fjor", lit "1 year ago");
    (lit "i dag", lit "0 day ago");
    (lit "i gar", lit "1 day ago");
    (lit "i ar", lit "0 year ago");
    (lit "na", lit "0 second ago")];
    ld_relrx := [(rx "(?i)for (\d+[.,]?\d*) minutter siden", lit "$1 minute ago");
    (rx "(?i)for (\d+[.,]?\d*) sekunder siden", lit "$1 second ago");
    (rx "(?i)for (\d+[.,]?\d*) maneder siden", lit "$1 month ago");
    (rx "(?i)for (\d+[.,]?\d*) minutt siden", lit "$1 minute ago");
    (rx "(?i)for (\d+[.,]?\d*) sekund siden", lit "$1 second ago");
    (rx "(?i)for (\d+[.,]?\d*) dager siden", lit "${1} day ago");
    (rx "(?i)for (\d+[.,]?\d*) maned siden", lit "$1 month ago");
    (rx "(?i)for (\d+[.,]?\d*) timer siden", lit "$1 hour ago");
    (rx "(?i)for (\d+[.,]?\d*) døgn siden", lit "$1 day ago");
    (rx "(?i)for (\d+[.,]?\d*) time siden", lit "$1 hour ago");
    (rx "(?i)for (\d+[.,]?\d*) uker siden", lit "$1 week ago");
    (rx "(?i)for (\d+[.,]?\d*) min siden", lit "$1 minute ago");
    (rx "(?i)for (\d+[.,]?\d*) sek siden", lit "$1 second ago");
    (rx "(?i)for (\d+[.,]?\d*) uke siden", lit "$1 week ago");
    (rx "(?i)for (\d+[.,]?\d*) ar siden", lit "$1 year ago");
    (rx "(?i)for (\d+[.,]?\d*) md siden", lit "$1 month ago");
    (rx "(?i)for (\d+[.,]?\d*) d siden", lit "$1 day ago");
    (rx "(?i)for (\d+[.,]?\d*) t siden", lit "$1 hour ago");
    (rx "(?i)for (\d+[.,]?\d*) u siden", lit "$1 week ago");
    (rx "(?i)om (\d+[.,]?\d*) minutter", lit "in $1 minute");
    (rx "(?i)om (\d+[.,]?\d*) sekunder", lit "in $1 second");
    (rx "(?i)om (\d+[.,]?\d*) maneder", lit "in $1 month");
    (rx "(?i)om (\d+[.,]?\d*) minutt", lit "in $1 minute");
    (rx "(?i)om (\d+[.,]?\d*) sekund", lit "in $1 second");
    (rx "(?i)om (\d+[.,]?\d*) maned", lit "in $1 month");
    (rx "(?i)om (\d+[.,]?\d*) timer", lit "in $1 hour");
    (rx "(?i)om (\d+[.,]?\d*) døgn", lit "in $1 day");
    (rx "(?i)om (\d+[.,]?\d*) time", lit "in $1 hour");
    (rx "(?i)om (\d+[.,]?\d*) uker", lit "in $1 week");
    (rx "(?i)om (\d+[.,]?\d*) min", lit "in $1 minute");
    (rx "(?i)om (\d+[.,]?\d*) sek", lit "in $1 second");
    (rx "(?i)om (\d+[.,]?\d*) uke", lit "in $1 week");
    (rx "(?i)om (\d+[.,]?\d*) ar", lit "in $1 year");
    (rx "(?i)om (\d+[.,]?\d*) md", lit "in $1 month");
    (rx "(?i)om (\d+[.,]?\d*) d", lit "in $1 day");
    (rx "(?i)om (\d+[.,]?\d*) t", lit "in $1 hour");
    (rx "(?i)om (\d+[.,]?\d*) u", lit "in $1 week");
    (rx "(?i)–(\d+[.,]?\d*) ar", lit "$1 year ago")];
    ld_rx := Some (rx "(?i)(\A|[^\pL\pM\d]|_)(for \d+[.,]?\d* minutter siden|for \d+[.,]?\d* sekunder siden|for \d+[.,]?\d* maneder siden|for \d+[.,]?\d* minutt siden|for \d+[.,]?\d* sekund siden|for \d+[.,]?\d* dager siden|for \d+[.,]?\d* maned siden|for \d+[.,]?\d* timer siden|for \d+[.,]?\d* døgn siden|for \d+[.,]?\d* time siden|for \d+[.,]?\d* uker siden|for \d+[.,]?\d* min siden|for \d+[.,]?\d* sek siden|for \d+[.,]?\d* uke siden|for \d+[.,]?\d* ar siden|for \d+[.,]?\d* md siden|for \d+[.,]?\d* d siden|for \d+[.,]?\d* t siden|for \d+[.,]?\d* u siden|om \d+[.,]?\d* minutter|om \d+[.,]?\d* sekunder|om \d+[.,]?\d* maneder|om \d+[.,]?\d* minutt|om \d+[.,]?\d* sekund|om \d+[.,]?\d* maned|om \d+[.,]?\d* timer|om \d+[.,]?\d* døgn|om \d+[.,]?\d* time|om \d+[.,]?\d* uker|om \d+[.,]?\d* min|om \d+[.,]?\d* sek|om \d+[.,]?\d* uke|om \d+[.,]?\d* ar|om \d+[.,]?\d* md|om \d+[.,]?\d* d|om \d+[.,]?\d* t|om \d+[.,]?\d* u|–\d+[.,]?\d* ar)(\z|[^\pL\pM\d]|_)");
    ld_rx_exact := Some (rx "(?i)^(for \d+[.,]?\d* minutter siden|for \d+[.,]?\d* sekunder siden|for \d+[.,]?\d* maneder siden|for \d+[.,]?\d* minutt siden|for \d+[.,]?\d* sekund siden|for \d+[.,]?\d* dager siden|for \d+[.,]?\d* maned siden|for \d+[.,]?\d* timer siden|for \d+[.,]?\d* døgn siden|for \d+[.,]?\d* time siden|for \d+[.,]?\d* uker siden|for \d+[.,]?\d* min siden|for \d+[.,]?\d* sek siden|for \d+[.,]?\d* uke siden|for \d+[.,]?\d* ar siden|for \d+[.,]?\d* md siden|for \d+[.,]?\d* d siden|for \d+[.,]?\d* t siden|for \d+[.,]?\d* u siden|om \d+[.,]?\d* minutter|om \d+[.,]?\d* sekunder|om \d+[.,]?\d* maneder|om \d+[.,]?\d* minutt|om \d+[.,]?\d* sekund|om \d+[.,]?\d* maned|om \d+[.,]?\d* timer|om \d+[.,]?\d* døgn|om \d+[.,]?\d* time|om \d+[.,]?\d* uker|om \d+[.,]?\d* min|om \d+[.,]?\d* sek|om \d+[.,]?\d* uke|om \d+[.,]?\d* ar|om \d+[.,]?\d* md|om \d+[.,]?\d* d|om \d+[.,]?\d* t|om \d+[.,]?\d* u|–\d+[.,]?\d* ar)$");
    ld_known := [lit "dette minuttet";
    lit "denne maneden";
    lit "forrige maned";
    lit "denne timen";
    lit "forrige uke";
    lit "neste maned";
    lit "denne uken";
    lit "forrige md";
    lit "neste uke";
    lit "september";
    lit "denne md";
    lit "desember";
    lit "i morgen";
    lit "neste ar";
    lit "neste md";
    lit "november";
    lit "februar";
    lit "oktober";
    lit "tirsdag";
    lit "torsdag";
    lit "august";
    lit "fredag";
    lit "i fjor";
    lit "januar";
    lit "lørdag";
    lit "mandag";
    lit "minutt";
    lit "onsdag";
    lit "sekund";
    lit "søndag";
    lit "april";
    lit "dager";
    lit "i dag";
    lit "i gar";
    lit "maned";
    lit "siden";
    lit "timer";
    lit "i ar";
    lit "juli";
    lit "juni";
    lit "mars";
    lit "time";
    lit "uker";
    lit "apr";
    lit "aug";
    lit "dag";
    lit "des";
    lit "feb";
    lit "fre";
    lit "gmt";
    lit "jan";
    lit "jul";
    lit "jun";
    lit "lør";
    lit "mai";
    lit "man";
    lit "mar";
    lit "min";
    lit "mnd";
    lit "nov";
    lit "okt";
    lit "ons";
    lit "sek";
    lit "sep";
    lit "søn";
    lit "tir";
    lit "tor";
    lit "uke";
    lit "utc";
    lit "am";
    lit "ar";
    lit "md";
    lit "na";
    lit "om";
    lit "pm";
    lit " ";
    lit "'";
    lit "+";
    lit ",";
    lit "-";
    lit ".";
    lit "/";
    lit ":";
    lit ";";
    lit "@";
    lit "[";
    lit "]";
    lit "d";
    lit "m";
    lit "s";
    lit "t";
    lit "u";
    lit "z";
    lit "|"] |}.

(** nb.go:160-163 *)
Definition own_nb_SJ : locale := Eval vm_compute in
  {| ld_name := lit "nb-SJ"; ld_order := lit "DMY"; ld_nospacing := false; ld_splitter := 0;
    ld_charset := runes (lit "");
    ld_abbr := [];
    ld_simpl := [];
    ld_trans := [];
    ld_reltype := [];
    ld_relrx := [];
    ld_rx := None;
    ld_rx_exact := None;
    ld_known := [] |}.
Definition loc_nb_SJ : locale := merge loc_nb own_nb_SJ.

(** nd.go:10-97 *)
Definition loc_nd : locale := Eval vm_compute in
  {| ld_name := lit "nd"; ld_order := lit "DMY"; ld_nospacing := false; ld_splitter := 0;
    ld_charset := runes (lit "bcdefghijklnorstuvwxyz");
    ld_abbr := [];
    ld_simpl := [];
    ld_trans := [(lit "inyangacale", [lit "month"]);
    (lit "ncwabakazi", [lit "august"]);
    (lit "nkwenkwezi", [lit "may"]);
    (lit "zibandlela", [lit "january"]);
    (lit "mbimbitho", [lit "march"]);
    (lit "mpalakazi", [lit "december"]);
    (lit "nhlangula", [lit "june"]);
    (lit "nhlolanja", [lit "february"]);
    (lit "ntulikazi", [lit "july"]);
    (lit "isekendi", [lit "second"]);
    (lit "mgqibelo", [lit "saturday"]);
    (lit "mpandula", [lit "september"]);
    (lit "sithathu", [lit "wednesday"]);
    (lit "sihlanu", [lit "friday"]);
    (lit "umnyaka", [lit "year"]);
    (lit "umuzuzu", [lit "minute"]);
    (lit "ilanga", [lit "day"]);
    (lit "mabasa", [lit "april"]);
    (lit "mfumfu", [lit "october"]);
    (lit "sibili", [lit "tuesday"]);
    (lit "ihola", [lit "hour"]);
    (lit "iviki", [lit "week"]);
    (lit "lwezi", [lit "november"]);
    (lit "mvulo", [lit "monday"]);
    (lit "sonto", [lit "sunday"]);
    (lit "mpal", [lit "december"]);
    (lit "mpan", [lit "september"]);
    (lit "nhla", [lit "june"]);
    (lit "nhlo", [lit "february"]);
    (lit "sine", [lit "thursday"]);
    (lit "gmt", [lit "gmt"]);
    (lit "lwe", [lit "november"]);
    (lit "mab", [lit "april"]);
    (lit "mbi", [lit "march"]);
    (lit "mfu", [lit "october"]);
    (lit "mgq", [lit "saturday"]);
    (lit "mvu", [lit "monday"]);
    (lit "ncw", [lit "august"]);
    (lit "nkw", [lit "may"]);
    (lit "ntu", [lit "july"]);
    (lit "sib", [lit "tuesday"]);
    (lit "sih", [lit "friday"]);
    (lit "sin", [lit "thursday"]);
    (lit "sit", [lit "wednesday"]);
    (lit "son", [lit "sunday"]);
    (lit "utc", [lit "utc"]);
    (lit "zib", [lit "january"]);
    (lit "am", [lit "am"]);
    (lit "pm", [lit "pm"]);
    (lit " ", [lit " "]);
    (lit "'", [lit ""]);
    (lit "+", [lit "+"]);
    (lit ",", [lit ""]);
    (lit "-", [lit "-"]);
    (lit ".", [lit "."]);
    (lit "/", [lit "/"]);
    (lit ":", [lit ":"]);
    (lit ";", [lit ""]);
    (lit "@", [lit ""]);
    (lit "[", [lit ""]);
    (lit "]", [lit ""]);
    (lit "z", [lit "z"]);
    (lit "|", [lit ""])];
    ld_reltype := [(lit "this minute", lit "0 minute ago");
    (lit "last month", lit "1 month ago");
    (lit "next month", lit "in 1 month");
    (lit "this month", lit "0 month ago");
    (lit "last week", lit "1 week ago");
    (lit "last year", lit "1 year ago");
    (lit "next week", lit "in 1 week");
    (lit "next year", lit "in 1 year");
    (lit "this hour", lit "0 hour ago");
    (lit "this week", lit "0 week ago");
    (lit "this year", lit "0 year ago");
    (lit "lamuhla", lit "0 day ago");
    (lit "kusasa", lit "in 1 day");
    (lit "izolo", lit "1 day ago");
    (lit "now", lit "0 second ago")];
    ld_relrx := [];
    ld_rx := None;
    ld_rx_exact := None;
    ld_known := [lit "inyangacale";
    lit "this minute";
    lit "last month";
    lit "ncwabakazi";
    lit "next month";
    lit "nkwenkwezi";
    lit "this month";
    lit "zibandlela";
    lit "last week";
    lit "last year";
    lit "mbimbitho";
    lit "mpalakazi";
    lit "next week";
    lit "next year";
    lit "nhlangula";
    lit "nhlolanja";
    lit "ntulikazi";
    lit "this hour";
    lit "this week";
    lit "this year";
    lit "isekendi";
    lit "mgqibelo";
    lit "mpandula";
    lit "sithathu";
    lit "lamuhla";
    lit "sihlanu";
    lit "umnyaka";
    lit "umuzuzu";
    lit "ilanga";
    lit "kusasa";
    lit "mabasa";
    lit "mfumfu";
    lit "sibili";
    lit "ihola";
    lit "iviki";
    lit "izolo";
    lit "lwezi";
    lit "mvulo";
    lit "sonto";
    lit "mpal";
    lit "mpan";
    lit "nhla";
    lit "nhlo";
    lit "sine";
    lit "gmt";
    lit "lwe";
    lit "mab";
    lit "mbi";
    lit "mfu";
    lit "mgq";
    lit "mvu";
    lit "ncw";
    lit "nkw";
    lit "now";
    lit "ntu";
    lit "sib";
    lit "sih";
    lit "sin";
    lit "sit";
    lit "son";
    lit "utc";
    lit "zib";
    lit "am";
    lit "pm";
    lit " ";
    lit "'";
    lit "+";
    lit ",";
    lit "-";
    lit ".";
    lit "/";
    lit ":";
    lit ";";
    lit "@";
    lit "[";
    lit "]";
    lit "z";
    lit "|"] |}.

(** ne.go:13-110 *)
Definition loc_ne : locale := Eval vm_compute in
  {| ld_name := lit "ne"; ld_order := lit "YMD"; ld_nospacing := false; ld_splitter := 0;
    ld_charset := runes (lit "cgtuzअआइईउकगघङचजटडणतधनपफबभमयरलवशषसहािीुूेो्");
    ld_abbr := [];
    ld_simpl := [];
    ld_trans := [(lit "बिहिबार", [lit "thursday"]);
    (lit "मङगलबार", [lit "tuesday"]);
    (lit "अकटोबर", [lit "october"]);
    (lit "अपराहन", [lit "pm"]);
    (lit "आइतबार", [lit "sunday"]);
    (lit "डिसमबर", [lit "december"]);
    (lit "नोभमबर", [lit "november"]);
    (lit "परवाहन", [lit "am"]);
    (lit "फबरअरी", [lit "february"]);
    (lit "शकरबार", [lit "friday"]);
    (lit "शनिबार", [lit "saturday"]);
    (lit "सपटमबर", [lit "september"]);
    (lit "सोमबार", [lit "monday"]);
    (lit "अपरिल", [lit "april"]);
    (lit "जनवरी", [lit "january"]);
    (lit "बधबार", [lit "wednesday"]);
    (lit "महिना", [lit "month"]);
    (lit "अगसट", [lit "august"]);
    (lit "घणटा", [lit "hour"]);
    (lit "जलाई", [lit "july"]);
    (lit "बिहि", [lit "thursday"]);
    (lit "मङगल", [lit "tuesday"]);
    (lit "मारच", [lit "march"]);
    (lit "मिनट", [lit "minute"]);
    (lit "सकनड", [lit "second"]);
    (lit "हपता", [lit "week"]);
    (lit "gmt", [lit "gmt"]);
    (lit "utc", [lit "utc"]);
    (lit "आइत", [lit "sunday"]);
    (lit "बरष", [lit "year"]);
    (lit "बार", [lit "day"]);
    (lit "वरष", [lit "year"]);
    (lit "शकर", [lit "friday"]);
    (lit "शनि", [lit "saturday"]);
    (lit "सोम", [lit "monday"]);
    (lit "am", [lit "am"]);
    (lit "pm", [lit "pm"]);
    (lit "जन", [lit "june"]);
    (lit "बध", [lit "wednesday"]);
    (lit "मई", [lit "may"]);
    (lit " ", [lit " "]);
    (lit "'", [lit ""]);
    (lit "+", [lit "+"]);
    (lit ",", [lit ""]);
    (lit "-", [lit "-"]);
    (lit ".", [lit "."]);
    (lit "/", [lit "/"]);
    (lit ":", [lit ":"]);
    (lit ";", [lit ""]);
    (lit "@", [lit ""]);
    (lit "[", [lit ""]);
    (lit "]", [lit ""]);
    (lit "z", [lit "z"]);
    (lit "|", [lit ""]);
    (lit "म", [lit "may"])];
    ld_reltype := [(lit "अरको महिना", lit "in 1 month");
    (lit "यही मिनटमा", lit "0 minute ago");
    (lit "अरको वरष", lit "in 1 year");
    (lit "आउन हपता", lit "in 1 week");
    (lit "गत महिना", lit "1 month ago");
    (lit "यो घडीमा", lit "0 hour ago");
    (lit "यो महिना", lit "0 month ago");
    (lit "गत हपता", lit "1 week ago");
    (lit "यो हपता", lit "0 week ago");
    (lit "गत वरष", lit "1 year ago");
    (lit "यो वरष", lit "0 year ago");
    (lit "भोलि", lit "in 1 day");
    (lit "हिजो", lit "1 day ago");
    (lit "अब", lit "0 second ago");
    (lit "आज", lit "0 day ago")];
    ld_relrx := [(rx "(?i)(\d+[.,]?\d*) महिना पहिल", lit "$1 month ago");
    (rx "(?i)(\d+[.,]?\d*) घणटा पहिल", lit "$1 hour ago");
    (rx "(?i)(\d+[.,]?\d*) मिनट पहिल", lit "$1 minute ago");
    (rx "(?i)(\d+[.,]?\d*) सकणड पहिल", lit "$1 second ago");
    (rx "(?i)(\d+[.,]?\d*) हपता पहिल", lit "$1 week ago");
    (rx "(?i)(\d+[.,]?\d*) दिन पहिल", lit "$1 day ago");
    (rx "(?i)(\d+[.,]?\d*) महिनामा", lit "in $1 month");
    (rx "(?i)(\d+[.,]?\d*) वरष अघि", lit "$1 year ago");
    (rx "(?i)(\d+[.,]?\d*) घणटामा", lit "in $1 hour");
    (rx "(?i)(\d+[.,]?\d*) मिनटमा", lit "in $1 minute");
    (rx "(?i)(\d+[.,]?\d*) सकणडमा", lit "in $1 second");
    (rx "(?i)(\d+[.,]?\d*) हपतामा", lit "in $1 week");
    (rx "(?i)(\d+[.,]?\d*) दिनमा", lit "in $1 day");
    (rx "(?i)(\d+[.,]?\d*) वरषमा", lit "in $1 year")];
    ld_rx := Some (rx "(?i)(\A|[^\pL\pM\d]|_)(\d+[.,]?\d* महिना पहिल|\d+[.,]?\d* घणटा पहिल|\d+[.,]?\d* मिनट पहिल|\d+[.,]?\d* सकणड पहिल|\d+[.,]?\d* हपता पहिल|\d+[.,]?\d* दिन पहिल|\d+[.,]?\d* महिनामा|\d+[.,]?\d* वरष अघि|\d+[.,]?\d* घणटामा|\d+[.,]?\d* मिनटमा|\d+[.,]?\d* सकणडमा|\d+[.,]?\d* हपतामा|\d+[.,]?\d* दिनमा|\d+[.,]?\d* वरषमा)(\z|[^\pL\pM\d]|_)");
    ld_rx_exact := Some (rx "(?i)^(\d+[.,]?\d* महिना पहिल|\d+[.,]?\d* घणटा पहिल|\d+[.,]?\d* मिनट पहिल|\d+[.,]?\d* सकणड पहिल|\d+[.,]?\d* हपता पहिल|\d+[.,]?\d* दिन पहिल|\d+[.,]?\d* महिनामा|\d+[.,]?\d* वरष अघि|\d+[.,]?\d* घणटामा|\d+[.,]?\d* मिनटमा|\d+[.,]?\d* सकणडमा|\d+[.,]?\d* हपतामा|\d+[.,]?\d* दिनमा|\d+[.,]?\d* वरषमा)$");
    ld_known := [lit "अरको महिना";
    lit "यही मिनटमा";
    lit "अरको वरष";
    lit "आउन हपता";
    lit "गत महिना";
    lit "यो घडीमा";
    lit "यो महिना";
    lit "गत हपता";
    lit "बिहिबार";
    lit "मङगलबार";
    lit "यो हपता";
    lit "अकटोबर";
    lit "अपराहन";
    lit "आइतबार";
    lit "गत वरष";
    lit "डिसमबर";
    lit "नोभमबर";
    lit "परवाहन";
    lit "फबरअरी";
    lit "यो वरष";
    lit "शकरबार";
    lit "शनिबार";
    lit "सपटमबर";
    lit "सोमबार";
    lit "अपरिल";
    lit "जनवरी";
    lit "बधबार";
    lit "महिना";
    lit "अगसट";
    lit "घणटा";
    lit "जलाई";
    lit "बिहि";
    lit "भोलि";
    lit "मङगल";
    lit "मारच";
    lit "मिनट";
    lit "सकनड";
    lit "हपता";
    lit "हिजो";
    lit "gmt";
    lit "utc";
    lit "आइत";
    lit "बरष";
    lit "बार";
    lit "वरष";
    lit "शकर";
    lit "शनि";
    lit "सोम";
    lit "am";
    lit "pm";
    lit "अब";
    lit "आज";
    lit "जन";
    lit "बध";
    lit "मई";
    lit " ";
    lit "'";
    lit "+";
    lit ",";
    lit "-";
    lit ".";
    lit "/";
    lit ":";
    lit ";";
    lit "@";
    lit "[";
    lit "]";
    lit "z";
    lit "|";
    lit "म"] |}.

(** ne.go:112-115 *)
Definition own_ne_IN : locale := Eval vm_compute in
  {| ld_name := lit "ne-IN"; ld_order := lit "YMD"; ld_nospacing := false; ld_splitter := 0;
    ld_charset := runes (lit "");
    ld_abbr := [];
    ld_simpl := [];
    ld_trans := [];
    ld_reltype := [];
    ld_relrx := [];
    ld_rx := None;
    ld_rx_exact := None;
    ld_known := [] |}.
Definition loc_ne_IN : locale := merge loc_ne own_ne_IN.

(** nl.go:18-156 *)
Definition loc_nl : locale := Eval vm_compute in
  {| ld_name := lit "nl"; ld_order := lit "DMY"; ld_nospacing := false; ld_splitter := 1;
    ld_charset := runes (lit "bcdefgijklnorstuvwz");
    ld_abbr := [];
    ld_simpl := [];
    ld_trans := [(lit "donderdag", [lit "thursday"]);
    (lit "september", [lit "september"]);
    (lit "augustus", [lit "august"]);
    (lit "december", [lit "december"]);
    (lit "februari", [lit "february"]);
    (lit "november", [lit "november"]);
    (lit "seconden", [lit "second"]);
    (lit "woensdag", [lit "wednesday"]);
    (lit "zaterdag", [lit "saturday"]);
    (lit "dinsdag", [lit "tuesday"]);
    (lit "geleden", [lit "ago"]);
    (lit "januari", [lit "january"]);
    (lit "maandag", [lit "monday"]);
    (lit "maanden", [lit "month"]);
    (lit "minuten", [lit "minute"]);
    (lit "oktober", [lit "october"]);
    (lit "seconde", [lit "second"]);
    (lit "vrijdag", [lit "friday"]);
    (lit "minuut", [lit "minute"]);
    (lit "zondag", [lit "sunday"]);
    (lit "april", [lit "april"]);
    (lit "dagen", [lit "day"]);
    (lit "maand", [lit "month"]);
    (lit "maart", [lit "march"]);
    (lit "weken", [lit "week"]);
    (lit "jaar", [lit "year"]);
    (lit "juli", [lit "july"]);
    (lit "juni", [lit "june"]);
    (lit "week", [lit "week"]);
    (lit "apr", [lit "april"]);
    (lit "aug", [lit "august"]);
    (lit "dag", [lit "day"]);
    (lit "dec", [lit "december"]);
    (lit "feb", [lit "february"]);
    (lit "gmt", [lit "gmt"]);
    (lit "jan", [lit "january"]);
    (lit "jul", [lit "july"]);
    (lit "jun", [lit "june"]);
    (lit "mei", [lit "may"]);
    (lit "min", [lit "minute"]);
    (lit "mnd", [lit "month"]);
    (lit "mrt", [lit "march"]);
    (lit "nov", [lit "november"]);
    (lit "okt", [lit "october"]);
    (lit "sec", [lit "second"]);
    (lit "sep", [lit "september"]);
    (lit "utc", [lit "utc"]);
    (lit "uur", [lit "hour"]);
    (lit "am", [lit "am"]);
    (lit "di", [lit "tuesday"]);
    (lit "do", [lit "thursday"]);
    (lit "in", [lit "in"]);
    (lit "jr", [lit "year"]);
    (lit "ma", [lit "monday"]);
    (lit "om", [lit ""]);
    (lit "pm", [lit "pm"]);
    (lit "vr", [lit "friday"]);
    (lit "wk", [lit "week"]);
    (lit "wo", [lit "wednesday"]);
    (lit "za", [lit "saturday"]);
    (lit "zo", [lit "sunday"]);
    (lit " ", [lit " "]);
    (lit "'", [lit ""]);
    (lit "+", [lit "+"]);
    (lit ",", [lit ""]);
    (lit "-", [lit "-"]);
    (lit ".", [lit "."]);
    (lit "/", [lit "/"]);
    (lit ":", [lit ":"]);
    (lit ";", [lit ""]);
    (lit "@", [lit ""]);
    (lit "[", [lit ""]);
    (lit "]", [lit ""]);
    (lit "s", [lit "second"]);
    (lit "z", [lit "z"]);
    (lit "|", [lit ""])];
    ld_reltype := [(lit "binnen een minuut", lit "0 minute ago");
    (lit "binnen een uur", lit "0 hour ago");
    (lit "volgende maand", lit "in 1 month");
    (lit "volgende week", lit "in 1 week");
    (lit "volgend jaar", lit "in 1 year");
    (lit "vorige maand", lit "1 month ago");
    (lit "eergisteren", lit "2 day ago");
    (lit "vorige jaar", lit "1 year ago");
    (lit "vorige week", lit "1 week ago");
    (lit "deze maand", lit "0 month ago");
    (lit "overmorgen", lit "in 2 day");
    (lit "vorig jaar", lit "1 year ago");
    (lit "deze week", lit "0 week ago");
    (lit "dit jaar", lit "0 year ago");
    (lit "gisteren", lit "1 day ago");
    (lit "vandaag", lit "0 day ago");
    (lit "morgen", lit "in 1 day");
    (lit "nu", lit "0 second ago")];
    ld_relrx := [(rx "(?i)(\d+[.,]?\d*) seconden geleden", lit "$1 second ago");
    (rx "(?i)(\d+[.,]?\d*) maanden geleden", lit "$1 month ago");
    (rx "(?i)(\d+[.,]?\d*) minuten geleden", lit "$1 minute ago");
    (rx "(?i)(\d+[.,]?\d*) seconde geleden", lit "$1 second ago");
    (rx "(?i)(\d+[.,]?\d*) minuut geleden", lit "$1 minute ago");
    (rx "(?i)(\d+[.,]?\d*) dagen geleden", lit "$1 day ago");
    (rx "(?i)(\d+[.,]?\d*) maand geleden", lit "$1 month ago");
    (rx "(?i)(\d+[.,]?\d*) weken geleden", lit "$1 week ago");
    (rx "(?i)over (\d+[.,]?\d*) seconden", lit "in $1 second");
    (rx "(?i)(\d+[.,]?\d*) jaar geleden", lit "$1 year ago");
    (rx "(?i)(\d+[.,]?\d*) week geleden", lit "$1 week ago");
    (rx "(?i)over (\d+[.,]?\d*) maanden", lit "in $1 month");
    (rx "(?i)over (\d+[.,]?\d*) minuten", lit "in $1 minute");
    (rx "(?i)over (\d+[.,]?\d*) seconde", lit "in $1 second");
    (rx "(?i)(\d+[.,]?\d*) dag geleden", lit "$1 day ago");
    (rx "(?i)(\d+[.,]?\d*) dgn geleden", lit "$1 day ago");
    (rx "(?i)(\d+[.,]?\d*) min geleden", lit "$1 minute ago");
    (rx "(?i)(\d+[.,]?\d*) sec geleden", lit "$1 second ago");
    (rx "(?i)(\d+[.,]?\d*) uur geleden", lit "$1 hour ago");
    (rx "(?i)over (\d+[.,]?\d*) minuut", lit "in $1 minute");
    (rx "(?i)over (\d+[.,]?\d*) dagen", lit "in $1 day");
    (rx "(?i)over (\d+[.,]?\d*) maand", lit "in $1 month");
    (rx "(?i)over (\d+[.,]?\d*) weken", lit "in $1 week");
    (rx "(?i)over (\d+[.,]?\d*) jaar", lit "in $1 year");
    (rx "(?i)over (\d+[.,]?\d*) week", lit "in $1 week");
    (rx "(?i)over (\d+[.,]?\d*) dag", lit "in $1 day");
    (rx "(?i)over (\d+[.,]?\d*) dgn", lit "in $1 day");
    (rx "(?i)over (\d+[.,]?\d*) min", lit "in $1 minute");
    (rx "(?i)over (\d+[.,]?\d*) sec", lit "in $1 second");
    (rx "(?i)over (\d+[.,]?\d*) uur", lit "in $1 hour")];
    ld_rx := Some (rx "(?i)(\A|[^\pL\pM\d]|_)(\d+[.,]?\d* seconden geleden|\d+[.,]?\d* maanden geleden|\d+[.,]?\d* minuten geleden|\d+[.,]?\d* seconde geleden|\d+[.,]?\d* minuut geleden|\d+[.,]?\d* dagen geleden|\d+[.,]?\d* maand geleden|\d+[.,]?\d* weken geleden|over \d+[.,]?\d* seconden|\d+[.,]?\d* jaar geleden|\d+[.,]?\d* week geleden|over \d+[.,]?\d* maanden|over \d+[.,]?\d* minuten|over \d+[.,]?\d* seconde|\d+[.,]?\d* dag geleden|\d+[.,]?\d* dgn geleden|\d+[.,]?\d* min geleden|\d+[.,]?\d* sec geleden|\d+[.,]?\d* uur geleden|over \d+[.,]?\d* minuut|over \d+[.,]?\d* dagen|over \d+[.,]?\d* maand|over \d+[.,]?\d* weken|over \d+[.,]?\d* jaar|over \d+[.,]?\d* week|over \d+[.,]?\d* dag|over \d+[.,]?\d* dgn|over \d+[.,]?\d* min|over \d+[.,]?\d* sec|over \d+[.,]?\d* uur)(\z|[^\pL\pM\d]|_)");
    ld_rx_exact := Some (rx "(?i)^(\d+[.,]?\d* seconden geleden|\d+[.,]?\d* maanden geleden|\d+[.,]?\d* minuten geleden|\d+[.,]?\d* seconde geleden|\d+[.,]?\d* minuut geleden|\d+[.,]?\d* dagen geleden|\d+[.,]?\d* maand geleden|\d+[.,]?\d* weken geleden|over \d+[.,]?\d* seconden|\d+[.,]?\d* jaar geleden|\d+[.,]?\d* week geleden|over \d+[.,]?\d* maanden|over \d+[.,]?\d* minuten|over \d+[.,]?\d* seconde|\d+[.,]?\d* dag geleden|\d+[.,]?\d* dgn geleden|\d+[.,]?\d* min geleden|\d+[.,]?\d* sec geleden|\d+[.,]?\d* uur geleden|over \d+[.,]?\d* minuut|over \d+[.,]?\d* dagen|over \d+[.,]?\d* maand|over \d+[.,]?\d* weken|over \d+[.,]?\d* jaar|over \d+[.,]?\d* week|over \d+[.,]?\d* dag|over \d+[.,]?\d* dgn|over \d+[.,]?\d* min|over \d+[.,]?\d* sec|over \d+[.,]?\d* uur)$");
    ld_known := [lit "binnen een minuut";
    lit "binnen een uur";
    lit "volgende maand";
    lit "volgende week";
    lit "volgend jaar";
    lit "vorige maand";
    lit "eergisteren";
    lit "vorige jaar";
    lit "vorige week";
    lit "deze maand";
    lit "overmorgen";
    lit "vorig jaar";
    lit "deze week";
    lit "donderdag";
    lit "september";
    lit "augustus";
    lit "december";
    lit "dit jaar";
    lit "februari";
    lit "gisteren";
    lit "november";
    lit "seconden";
    lit "woensdag";
    lit "zaterdag";
    lit "dinsdag";
    lit "geleden";
    lit "januari";
    lit "maandag";
    lit "maanden";
    lit "minuten";
    lit "oktober";
    lit "seconde";
    lit "vandaag";
    lit "vrijdag";
    lit "minuut";
    lit "morgen";
    lit "zondag";
    lit "april";
    lit "dagen";
    lit "maand";
    lit "maart";
    lit "weken";
    lit "jaar";
    lit "juli";
    lit "juni";
    lit "week";
    lit "apr";
    lit "aug";
    lit "dag";
    lit "dec";
    lit "feb";
    lit "gmt";
    lit "jan";
    lit "jul";
    lit "jun";
    lit "mei";
    lit "min";
    lit "mnd";
    lit "mrt";
    lit "nov";
    lit "okt";
    lit "sec";
    lit "sep";
    lit "utc";
    lit "uur";
    lit "am";
    lit "di";
    lit "do";
    lit "in";
    lit "jr";
    lit "ma";
    lit "nu";
    lit "om";
    lit "pm";
    lit "vr";
    lit "wk";
    lit "wo";
    lit "za";
    lit "zo";
    lit " ";
    lit "'";
    lit "+";
    lit ",";
    lit "-";
    lit ".";
    lit "/";
    lit ":";
    lit ";";
    lit "@";
    lit "[";
    lit "]";
    lit "s";
    lit "z";
    lit "|"] |}.

(** nl.go:158-161 *)
Definition own_nl_AW : locale := Eval vm_compute in
  {| ld_name := lit "nl-AW"; ld_order := lit "DMY"; ld_nospacing := false; ld_splitter := 0;
    ld_charset := runes (lit "");
    ld_abbr := [];
    ld_simpl := [];
    ld_trans := [];
    ld_reltype := [];
    ld_relrx := [];
    ld_rx := None;
    ld_rx_exact := None;
    ld_known := [] |}.
Definition loc_nl_AW : locale := merge loc_nl own_nl_AW.

(** nl.go:163-166 *)
Definition own_nl_BE : locale := Eval vm_compute in
  {| ld_name := lit "nl-BE"; ld_order := lit "DMY"; ld_nospacing := false; ld_splitter := 0;
    ld_charset := runes (lit "");
    ld_abbr := [];
    ld_simpl := [];
    ld_trans := [];
    ld_reltype := [];
    ld_relrx := [];
    ld_rx := None;
    ld_rx_exact := None;
    ld_known := [] |}.
Definition loc_nl_BE : locale := merge loc_nl own_nl_BE.

(** nl.go:168-171 *)
Definition own_nl_BQ : locale := Eval vm_compute in
  {| ld_name := lit "nl-BQ"; ld_order := lit "DMY"; ld_nospacing := false; ld_splitter := 0;
    ld_charset := runes (lit "");
    ld_abbr := [];
    ld_simpl := [];
    ld_trans := [];
    ld_reltype := [];
    ld_relrx := [];
    ld_rx := None;
    ld_rx_exact := None;
    ld_known := [] |}.
Definition loc_nl_BQ : locale := merge loc_nl own_nl_BQ.

(** nl.go:173-176 *)
Definition own_nl_CW : locale := Eval vm_compute in
  {| ld_name := lit "nl-CW"; ld_order := lit "DMY"; ld_nospacing := false; ld_splitter := 0;
    ld_charset := runes (lit "");
    ld_abbr := [];
    ld_simpl := [];
    ld_trans := [];
    ld_reltype := [];
    ld_relrx := [];
    ld_rx := None;
    ld_rx_exact := None;
    ld_known := [] |}.
Definition loc_nl_CW : locale := merge loc_nl own_nl_CW.

(** nl.go:178-181 *)
Definition own_nl_SR : locale := Eval vm_compute in
  {| ld_name := lit "nl-SR"; ld_order := lit "DMY"; ld_nospacing := false; ld_splitter := 0;
    ld_charset := runes (lit "");
    ld_abbr := [];
    ld_simpl := [];
    ld_trans := [];
    ld_reltype := [];
    ld_relrx := [];
    ld_rx := None;
    ld_rx_exact := None;
    ld_known := [] |}.
Definition loc_nl_SR : locale := merge loc_nl own_nl_SR.

(** nl.go:183-186 *)
Definition own_nl_SX : locale := Eval vm_compute in
  {| ld_name := lit "nl-SX"; ld_order := lit "DMY"; ld_nospacing := false; ld_splitter := 0;
    ld_charset := runes (lit "");
    ld_abbr := [];
    ld_simpl := [];
    ld_trans := [];
    ld_reltype := [];
    ld_relrx := [];
    ld_rx := None;
    ld_rx_exact := None;
    ld_known := [] |}.
Definition loc_nl_SX : locale := merge loc_nl own_nl_SX.

(** nmg.go:10-98 *)
Definition loc_nmg : locale := Eval vm_compute in
  {| ld_name := lit "nmg"; ld_order := lit "DMY"; ld_nospacing := false; ld_splitter := 0;
    ld_charset := runes (lit "bcdefghiklnorstuvwxyzáâíóöúāńǔɔɛ́");
    ld_abbr := [];
    ld_simpl := [];
    ld_trans := [(lit "sɔndɔ mafu malal", [lit "wednesday"]);
    (lit "mabaga ma sukul", [lit "friday"]);
    (lit "ngwɛn wum navur", [lit "november"]);
    (lit "sɔndɔ mafu maba", [lit "tuesday"]);
    (lit "sɔndɔ mafu mana", [lit "thursday"]);
    (lit "ngwɛn hɛmbuɛri", [lit "july"]);
    (lit "ngwɛn matahra", [lit "january"]);
    (lit "ngwɛn rɛbvua", [lit "september"]);
    (lit "ngwɛn lɔmbi", [lit "august"]);
    (lit "ngwɛn nlal", [lit "march"]);
    (lit "ngwɛn nmba", [lit "february"]);
    (lit "ngwɛn ntan", [lit "may"]);
    (lit "ngwɛn ntuo", [lit "june"]);
    (lit "ngwɛn nna", [lit "april"]);
    (lit "ngwɛn wum", [lit "october"]);
    (lit "krisimin", [lit "december"]);
    (lit "sasadi", [lit "saturday"]);
    (lit "mpala", [lit "minute"]);
    (lit "mɔndɔ", [lit "monday"]);
    (lit "ngwɛn", [lit "month"]);
    (lit "nyiɛl", [lit "second"]);
    (lit "sɔndɔ", [lit "week"; lit "sunday"]);
    (lit "kris", [lit "december"]);
    (lit "kugu", [lit "pm"]);
    (lit "mana", [lit "am"]);
    (lit "mbvu", [lit "year"]);
    (lit "ng10", [lit "october"]);
    (lit "ng11", [lit "november"]);
    (lit "wula", [lit "hour"]);
    (lit "duo", [lit "day"]);
    (lit "gmt", [lit "gmt"]);
    (lit "mbs", [lit "friday"]);
    (lit "mɔn", [lit "monday"]);
    (lit "ng1", [lit "january"]);
    (lit "ng2", [lit "february"]);
    (lit "ng3", [lit "march"]);
    (lit "ng4", [lit "april"]);
    (lit "ng5", [lit "may"]);
    (lit "ng6", [lit "june"]);
    (lit "ng7", [lit "july"]);
    (lit "ng8", [lit "august"]);
    (lit "ng9", [lit "september"]);
    (lit "sas", [lit "saturday"]);
    (lit "smb", [lit "tuesday"]);
    (lit "sml", [lit "wednesday"]);
    (lit "smn", [lit "thursday"]);
    (lit "sɔn", [lit "sunday"]);
    (lit "utc", [lit "utc"]);
    (lit "am", [lit "am"]);
    (lit "pm", [lit "pm"]);
    (lit " ", [lit " "]);
    (lit "'", [lit ""]);
    (lit "+", [lit "+"]);
    (lit ",", [lit ""]);
    (lit "-", [lit "-"]);
    (lit ".", [lit "."]);
    (lit "/", [lit "/"]);
    (lit ":", [lit ":"]);
    (lit ";", [lit ""]);
    (lit "@", [lit ""]);
    (lit "[", [lit ""]);
    (lit "]", [lit ""]);
    (lit "z", [lit "z"]);
    (lit "|", [lit ""])];
    ld_reltype := [(lit "this minute", lit "0 minute ago");
    (lit "last month", lit "1 month ago");
    (lit "next month", lit "in 1 month");
    (lit "this month", lit "0 month ago");
    (lit "last week", lit "1 week ago");
    (lit "last year", lit "1 year ago");
    (lit "next week", lit "in 1 week");
    (lit "next year", lit "in 1 year");
    (lit "this hour", lit "0 hour ago");
    (lit "this week", lit "0 week ago");
    (lit "this year", lit "0 year ago");
    (lit "nakugu", lit "1 day ago");
    (lit "namana", lit "in 1 day");
    (lit "dɔl", lit "0 day ago");
    (lit "now", lit "0 second ago")];
    ld_relrx := [];
    ld_rx := None;
    ld_rx_exact := None;
    ld_known := [lit "sɔndɔ mafu malal";
    lit "mabaga ma sukul";
    lit "ngwɛn wum navur";
    lit "sɔndɔ mafu maba";
    lit "sɔndɔ mafu mana";
    lit "ngwɛn hɛmbuɛri";
    lit "ngwɛn matahra";
    lit "ngwɛn rɛbvua";
    lit "ngwɛn lɔmbi";
    lit "this minute";
    lit "last month";
    lit "next month";
    lit "ngwɛn nlal";
    lit "ngwɛn nmba";
    lit "ngwɛn ntan";
    lit "ngwɛn ntuo";
    lit "this month";
    lit "last week";
    lit "last year";
    lit "next week";
    lit "next year";
    lit "ngwɛn nna";
    lit "ngwɛn wum";
    lit "this hour";
    lit "this week";
    lit "this year";
    lit "krisimin";
    lit "nakugu";
    lit "namana";
    lit "sasadi";
    lit "mpala";
    lit "mɔndɔ";
    lit "ngwɛn";
    lit "nyiɛl";
    lit "sɔndɔ";
    lit "kris";
    lit "kugu";
    lit "mana";
    lit "mbvu";
    lit "ng10";
    lit "ng11";
    lit "wula";
    lit "duo";
    lit "dɔl";
    lit "gmt";
    lit "mbs";
    lit "mɔn";
    lit "ng1";
    lit "ng2";
    lit "ng3";
    lit "ng4";
    lit "ng5";
    lit "ng6";
    lit "ng7";
    lit "ng8";
    lit "ng9";
    lit "now";
    lit "sas";
    lit "smb";
    lit "sml";
    lit "smn";
    lit "sɔn";
    lit "utc";
    lit "am";
    lit "pm";
    lit " ";
    lit "'";
    lit "+";
    lit ",";
    lit "-";
    lit ".";
    lit "/";
    lit ":";
    lit ";";
    lit "@";
    lit "[";
    lit "]";
    lit "z";
    lit "|"] |}.

(** nn.go:12-137 *)
Definition loc_nn : locale := Eval vm_compute in
  {| ld_name := lit "nn"; ld_order := lit "DMY"; ld_nospacing := false; ld_splitter := 0;
    ld_charset := runes (lit "bcdefghijklnorstuvwxyzåø");
    ld_abbr := [];
    ld_simpl := [];
    ld_trans := [(lit "ettermiddag", [lit "pm"]);
    (lit "formiddag", [lit "am"]);
    (lit "september", [lit "september"]);
    (lit "desember", [lit "december"]);
    (lit "november", [lit "november"]);
    (lit "februar", [lit "february"]);
    (lit "laurdag", [lit "saturday"]);
    (lit "oktober", [lit "october"]);
    (lit "torsdag", [lit "thursday"]);
    (lit "august", [lit "august"]);
    (lit "fredag", [lit "friday"]);
    (lit "januar", [lit "january"]);
    (lit "mandag", [lit "monday"]);
    (lit "minutt", [lit "minute"]);
    (lit "onsdag", [lit "wednesday"]);
    (lit "sekund", [lit "second"]);
    (lit "søndag", [lit "sunday"]);
    (lit "tysdag", [lit "tuesday"]);
    (lit "april", [lit "april"]);
    (lit "manad", [lit "month"]);
    (lit "juli", [lit "july"]);
    (lit "juni", [lit "june"]);
    (lit "mars", [lit "march"]);
    (lit "time", [lit "hour"]);
    (lit "veke", [lit "week"]);
    (lit "apr", [lit "april"]);
    (lit "aug", [lit "august"]);
    (lit "dag", [lit "day"]);
    (lit "des", [lit "december"]);
    (lit "feb", [lit "february"]);
    (lit "fre", [lit "friday"]);
    (lit "gmt", [lit "gmt"]);
    (lit "jan", [lit "january"]);
    (lit "jul", [lit "july"]);
    (lit "jun", [lit "june"]);
    (lit "lau", [lit "saturday"]);
    (lit "mai", [lit "may"]);
    (lit "man", [lit "monday"]);
    (lit "mar", [lit "march"]);
    (lit "nov", [lit "november"]);
    (lit "okt", [lit "october"]);
    (lit "ons", [lit "wednesday"]);
    (lit "sep", [lit "september"]);
    (lit "søn", [lit "sunday"]);
    (lit "tor", [lit "thursday"]);
    (lit "tys", [lit "tuesday"]);
    (lit "utc", [lit "utc"]);
    (lit "am", [lit "am"]);
    (lit "ar", [lit "year"]);
    (lit "em", [lit "pm"]);
    (lit "fm", [lit "am"]);
    (lit "fr", [lit "friday"]);
    (lit "la", [lit "saturday"]);
    (lit "ma", [lit "monday"]);
    (lit "on", [lit "wednesday"]);
    (lit "pm", [lit "pm"]);
    (lit "sø", [lit "sunday"]);
    (lit "to", [lit "thursday"]);
    (lit "ty", [lit "tuesday"]);
    (lit " ", [lit " "]);
    (lit "'", [lit ""]);
    (lit "+", [lit "+"]);
    (lit ",", [lit ""]);
    (lit "-", [lit "-"]);
    (lit ".", [lit "."]);
    (lit "/", [lit "/"]);
    (lit ":", [lit ":"]);
    (lit ";", [lit ""]);
    (lit "@", [lit ""]);
    (lit "[", [lit ""]);
    (lit "]", [lit ""]);
    (lit "z", [lit "z"]);
    (lit "|", [lit ""])];
    ld_reltype := [(lit "this minute", lit "0 minute ago");
    (lit "last month", lit "1 month ago");
    (lit "next month", lit "in 1 month");
    (lit "this month", lit "0 month ago");
    (lit "last week", lit "1 week ago");
    (lit "last year", lit "1 year ago");
    (lit "next week", lit "in 1 week");
    (lit "next year", lit "in 1 year");
    (lit "this hour", lit "0 hour ago");
    (lit "this week", lit "0 week ago");
    (lit "this year", lit "0 year ago");
    (lit "i morgon", lit "in 1 day");
    (lit "i dag", lit "0 day ago");
    (lit "i gar", lit "1 day ago");
    (lit "now", lit "0 second ago")];
    ld_relrx := [(rx "(?i)for (\d+[.,]?\d*) minutter siden", lit "$1 minute ago");
    (rx "(?i)for (\d+[.,]?\d*) sekunder siden", lit "$1 second ago");
    (rx "(?i)for (\d+[.,]?\d*) maneder siden", lit "$1 month ago");
    (rx "(?i)for (\d+[.,]?\d*) minutt siden", lit "$1 minute ago");
    (rx "(?i)for (\d+[.,]?\d*) sekund siden", lit "$1 second ago");
    (rx "(?i)for (\d+[.,]?\d*) maned siden", lit "$1 month ago");
    (rx "(?i)for (\d+[.,]?\d*) timer siden", lit "$1 hour ago");
    (rx "(?i)for (\d+[.,]?\d*) døgn siden", lit "$1 day ago");
    (rx "(?i)for (\d+[.,]?\d*) time siden", lit "$1 hour ago");
    (rx "(?i)for (\d+[.,]?\d*) uker siden", lit "$1 week ago");
    (rx "(?i)for (\d+[.,]?\d*) uke siden", lit "$1 week ago");
    (rx "(?i)for (\d+[.,]?\d*) ar siden", lit "$1 year ago");
    (rx "(?i)om (\d+[.,]?\d*) minutter", lit "in $1 minute");
    (rx "(?i)om (\d+[.,]?\d*) sekunder", lit "in $1 second");
    (rx "(?i)om (\d+[.,]?\d*) maneder", lit "in $1 month");
    (rx "(?i)om (\d+[.,]?\d*) minutt", lit "in $1 minute");
    (rx "(?i)om (\d+[.,]?\d*) sekund", lit "in $1 second");
    (rx "(?i)om (\d+[.,]?\d*) maned", lit "in $1 month");
    (rx "(?i)om (\d+[.,]?\d*) timer", lit "in $1 hour");
    (rx "(?i)om (\d+[.,]?\d*) døgn", lit "in $1 day");
    (rx "(?i)om (\d+[.,]?\d*) time", lit "in $1 hour");
    (rx "(?i)om (\d+[.,]?\d*) uker", lit "in $1 week");
    (rx "(?i)om (\d+[.,]?\d*) uke", lit "in $1 week");
    (rx "(?i)om (\d+[.,]?\d*) ar", lit "in $1 year")];
    ld_rx := Some (rx "(?i)(\A|[^\pL\pM\d]|_)(for \d+[.,]?\d* minutter siden|for \d+[.,]?\d* sekunder siden|for \d+[.,]?\d* maneder siden|for \d+[.,]?\d* minutt siden|for \d+[.,]?\d* sekund siden|for \d+[.,]?\d* maned siden|for \d+[.,]?\d* timer siden|for \d+[.,]?\d* døgn siden|for \d+[.,]?\d* time siden|for \d+[.,]?\d* uker siden|for \d+[.,]?\d* uke siden|for \d+[.,]?\d* ar siden|om \d+[.,]?\d* minutter|om \d+[.,]?\d* sekunder|om \d+[.,]?\d* maneder|om \d+[.,]?\d* minutt|om \d+[.,]?\d* sekund|om \d+[.,]?\d* maned|om \d+[.,]?\d* timer|om \d+[.,]?\d* døgn|om \d+[.,]?\d* time|om \d+[.,]?\d* uker|om \d+[.,]?\d* uke|om \d+[.,]?\d* ar)(\z|[^\pL\pM\d]|_)");
    ld_rx_exact := Some (rx "(?i)^(for \d+[.,]?\d* minutter siden|for \d+[.,]?\d* sekunder siden|for \d+[.,]?\d* maneder siden|for \d+[.,]?\d* minutt siden|for \d+[.,]?\d* sekund siden|for \d+[.,]?\d* maned siden|for \d+[.,]?\d* timer siden|for \d+[.,]?\d* døgn siden|for \d+[.,]?\d* time siden|for \d+[.,]?\d* uker siden|for \d+[.,]?\d* uke siden|for \d+[.,]?\d* ar siden|om \d+[.,]?\d* minutter|om \d+[.,]?\d* sekunder|om \d+[.,]?\d* maneder|om \d+[.,]?\d* minutt|om \d+[.,]?\d* sekund|om \d+[.,]?\d* maned|om \d+[.,]?\d* timer|om \d+[.,]?\d* døgn|om \d+[.,]?\d* time|om \d+[.,]?\d* uker|om \d+[.,]?\d* uke|om \d+[.,]?\d* ar)$");
    ld_known := [lit "ettermiddag";
    lit "this minute";
    lit "last month";
    lit "next month";
    lit "this month";
    lit "formiddag";
    lit "last week";
    lit "last year";
    lit "next week";
    lit "next year";
    lit "september";
    lit "this hour";
    lit "this week";
    lit "this year";
    lit "desember";
    lit "i morgon";
    lit "november";
    lit "februar";
    lit "laurdag";
    lit "oktober";
    lit "torsdag";
    lit "august";
    lit "fredag";
    lit "januar";
    lit "mandag";
    lit "minutt";
    lit "onsdag";
    lit "sekund";
    lit "søndag";
    lit "tysdag";
    lit "april";
    lit "i dag";
    lit "i gar";
    lit "manad";
    lit "juli";
    lit "juni";
    lit "mars";
    lit "time";
    lit "veke";
    lit "apr";
    lit "aug";
    lit "dag";
    lit "des";
    lit "feb";
    lit "fre";
    lit "gmt";
    lit "jan";
    lit "jul";
    lit "jun";
    lit "lau";
    lit "mai";
    lit "man";
    lit "mar";
    lit "nov";
    lit "now";
    lit "okt";
    lit "ons";
    lit "sep";
    lit "søn";
    lit "tor";
    lit "tys";
    lit "utc";
    lit "am";
    lit "ar";
    lit "em";
    lit "fm";
    lit "fr";
    lit "la";
    lit "ma";
    lit "on";
    lit "pm";
    lit "sø";
    lit "to";
    lit "ty";
    lit " ";
    lit "'";
    lit "+";
    lit ",";
    lit "-";
    lit ".";
    lit "/";
    lit ":";
    lit ";";
    lit "@";
    lit "[";
    lit "]";
    lit "z";
    lit "|"] |}.

(** nnh.go:10-80 *)
Definition loc_nnh : locale := Eval vm_compute in
  {| ld_name := lit "nnh"; ld_order := lit "DMY"; ld_nospacing := false; ld_splitter := 0;
    ld_charset := runes (lit "bcdefghijklnorstuvwxyzàáèéíòóùúÿŋǔɔɛʉ̀́̌ẅ");
    ld_abbr := [];
    ld_simpl := [];
    ld_trans := [(lit "mbɔɔnte tsetsɛɛ lyɛ'", [lit "thursday"]);
    (lit "saŋ tyɛb tyɛb mbʉŋ", [lit "july"]);
    (lit "mbɔɔnte mvfo lyɛ'", [lit "tuesday"]);
    (lit "saŋ taŋa tsetsa'", [lit "october"]);
    (lit "saŋ tsetsɛɛ lum", [lit "january"]);
    (lit "mvfo maga lyɛ'", [lit "friday"]);
    (lit "saŋ lepye shum", [lit "march"]);
    (lit "saŋ ngwɔ' mbyɛ", [lit "september"]);
    (lit "saŋ kag ngwoŋ", [lit "february"]);
    (lit "lyɛ'ɛ swiŋte", [lit "sunday"]);
    (lit "saŋ tsɛɛ cyo", [lit "may"]);
    (lit "tsetsɛɛ lyɛ'", [lit "wednesday"]);
    (lit "saŋ mejwoŋo", [lit "november"]);
    (lit "saŋ njyola'", [lit "june"]);
    (lit "maga lyɛ'", [lit "saturday"]);
    (lit "mba'amba'", [lit "am"]);
    (lit "mvfo lyɛ'", [lit "monday"]);
    (lit "ncwonzem", [lit "pm"]);
    (lit "saŋ mbʉŋ", [lit "august"]);
    (lit "fʉ' nem", [lit "hour"]);
    (lit "saŋ cyo", [lit "april"]);
    (lit "saŋ lum", [lit "december"]);
    (lit "minute", [lit "minute"]);
    (lit "second", [lit "second"]);
    (lit "month", [lit "month"]);
    (lit "lyɛ'", [lit "day"]);
    (lit "ngu'", [lit "year"]);
    (lit "week", [lit "week"]);
    (lit "gmt", [lit "gmt"]);
    (lit "utc", [lit "utc"]);
    (lit "am", [lit "am"]);
    (lit "pm", [lit "pm"]);
    (lit " ", [lit " "]);
    (lit "'", [lit ""]);
    (lit "+", [lit "+"]);
    (lit ",", [lit ""]);
    (lit "-", [lit "-"]);
    (lit ".", [lit "."]);
    (lit "/", [lit "/"]);
    (lit ":", [lit ":"]);
    (lit ";", [lit ""]);
    (lit "@", [lit ""]);
    (lit "[", [lit ""]);
    (lit "]", [lit ""]);
    (lit "z", [lit "z"]);
    (lit "|", [lit ""])];
    ld_reltype := [(lit "juɔ gwie a ne ntoo", lit "in 1 day");
    (lit "juɔ gwie a ka tɔg", lit "1 day ago");
    (lit "this minute", lit "0 minute ago");
    (lit "last month", lit "1 month ago");
    (lit "next month", lit "in 1 month");
    (lit "this month", lit "0 month ago");
    (lit "last week", lit "1 week ago");
    (lit "last year", lit "1 year ago");
    (lit "next week", lit "in 1 week");
    (lit "next year", lit "in 1 year");
    (lit "this hour", lit "0 hour ago");
    (lit "this week", lit "0 week ago");
    (lit "this year", lit "0 year ago");
    (lit "lyɛ'ɔɔn", lit "0 day ago");
    (lit "now", lit "0 second ago")];
    ld_relrx := [];
    ld_rx := None;
    ld_rx_exact := None;
    ld_known := [lit "mbɔɔnte tsetsɛɛ lyɛ'";
    lit "juɔ gwie a ne ntoo";
    lit "saŋ tyɛb tyɛb mbʉŋ";
    lit "juɔ gwie a ka tɔg";
    lit "mbɔɔnte mvfo lyɛ'";
    lit "saŋ taŋa tsetsa'";
    lit "saŋ tsetsɛɛ lum";
    lit "mvfo maga lyɛ'";
    lit "saŋ lepye shum";
    lit "saŋ ngwɔ' mbyɛ";
    lit "saŋ kag ngwoŋ";
    lit "lyɛ'ɛ swiŋte";
    lit "saŋ tsɛɛ cyo";
    lit "tsetsɛɛ lyɛ'";
    lit "saŋ mejwoŋo";
    lit "saŋ njyola'";
    lit "this minute";
    lit "last month";
    lit "next month";
    lit "this month";
    lit "last week";
    lit "last year";
    lit "maga lyɛ'";
    lit "mba'amba'";
    lit "mvfo lyɛ'";
    lit "next week";
    lit "next year";
    lit "this hour";
    lit "this week";
    lit "this year";
    lit "ncwonzem";
    lit "saŋ mbʉŋ";
    lit "fʉ' nem";
    lit "lyɛ'ɔɔn";
    lit "saŋ cyo";
    lit "saŋ lum";
    lit "minute";
    lit "second";
    lit "month";
    lit "lyɛ'";
    lit "ngu'";
    lit "week";
    lit "gmt";
    lit "now";
    lit "utc";
    lit "am";
    lit "pm";
    lit " ";
    lit "'";
    lit "+";
    lit ",";
    lit "-";
    lit ".";
    lit "/";
    lit ":";
    lit ";";
    lit "@";
    lit "[";
    lit "]";
    lit "z";
    lit "|"] |}.

(** nus.go:10-94 *)
Definition loc_nus : locale := Eval vm_compute in
  {| ld_name := lit "nus"; ld_order := lit "DMY"; ld_nospacing := false; ld_splitter := 0;
    ld_charset := runes (lit "bcdeghijklnorstuwxyzäŋɔɛ̱");
    ld_abbr := [];
    ld_simpl := [];
    ld_trans := [(lit "tiop thar pɛt", [lit "january"]);
    (lit "dhieec latni", [lit "friday"]);
    (lit "tiop in diit", [lit "december"]);
    (lit "bakɛl latni", [lit "saturday"]);
    (lit "ŋuaan latni", [lit "thursday"]);
    (lit "diɔk latni", [lit "wednesday"]);
    (lit "pay yietni", [lit "july"]);
    (lit "caŋ kuɔth", [lit "sunday"]);
    (lit "rɛw latni", [lit "tuesday"]);
    (lit "jiec lat", [lit "monday"]);
    (lit "kornyoot", [lit "june"]);
    (lit "thɛkɛni", [lit "second"]);
    (lit "dhieec", [lit "friday"]);
    (lit "bakɛl", [lit "saturday"]);
    (lit "duɔɔŋ", [lit "march"]);
    (lit "laath", [lit "october"]);
    (lit "minit", [lit "minute"]);
    (lit "thaak", [lit "hour"]);
    (lit "thoor", [lit "august"]);
    (lit "ŋuaan", [lit "thursday"]);
    (lit "diɔk", [lit "wednesday"]);
    (lit "duat", [lit "may"]);
    (lit "duɔɔ", [lit "march"]);
    (lit "guak", [lit "april"]);
    (lit "jiec", [lit "monday"]);
    (lit "jiɔk", [lit "week"]);
    (lit "ruɔn", [lit "year"]);
    (lit "thoo", [lit "august"]);
    (lit "tiop", [lit "january"]);
    (lit "tɛɛr", [lit "september"]);
    (lit "caŋ", [lit "day"; lit "sunday"]);
    (lit "dua", [lit "may"]);
    (lit "gmt", [lit "gmt"]);
    (lit "kor", [lit "june"]);
    (lit "kur", [lit "november"]);
    (lit "laa", [lit "october"]);
    (lit "pay", [lit "july"; lit "month"]);
    (lit "pɛt", [lit "february"]);
    (lit "rɛw", [lit "tuesday"]);
    (lit "tid", [lit "december"]);
    (lit "tɛɛ", [lit "september"]);
    (lit "utc", [lit "utc"]);
    (lit "am", [lit "am"]);
    (lit "pm", [lit "pm"]);
    (lit "rw", [lit "am"]);
    (lit "tŋ", [lit "pm"]);
    (lit " ", [lit " "]);
    (lit "'", [lit ""]);
    (lit "+", [lit "+"]);
    (lit ",", [lit ""]);
    (lit "-", [lit "-"]);
    (lit ".", [lit "."]);
    (lit "/", [lit "/"]);
    (lit ":", [lit ":"]);
    (lit ";", [lit ""]);
    (lit "@", [lit ""]);
    (lit "[", [lit ""]);
    (lit "]", [lit ""]);
    (lit "z", [lit "z"]);
    (lit "|", [lit ""])];
    ld_reltype := [(lit "this minute", lit "0 minute ago");
    (lit "last month", lit "1 month ago");
    (lit "next month", lit "in 1 month");
    (lit "this month", lit "0 month ago");
    (lit "last week", lit "1 week ago");
    (lit "last year", lit "1 year ago");
    (lit "next week", lit "in 1 week");
    (lit "next year", lit "in 1 year");
    (lit "this hour", lit "0 hour ago");
    (lit "this week", lit "0 week ago");
    (lit "this year", lit "0 year ago");
    (lit "ruun", lit "in 1 day");
    (lit "walɛ", lit "0 day ago");
    (lit "now", lit "0 second ago");
    (lit "pan", lit "1 day ago")];
    ld_relrx := [];
    ld_rx := None;
    ld_rx_exact := None;
    ld_known := [lit "tiop thar pɛt";
    lit "dhieec latni";
    lit "tiop in diit";
    lit "bakɛl latni";
    lit "this minute";
    lit "ŋuaan latni";
    lit "diɔk latni";
    lit "last month";
    lit "next month";
    lit "pay yietni";
    lit "this month";
    lit "caŋ kuɔth";
    lit "last week";
    lit "last year";
    lit "next week";
    lit "next year";
    lit "rɛw latni";
    lit "this hour";
    lit "this week";
    lit "this year";
    lit "jiec lat";
    lit "kornyoot";
    lit "thɛkɛni";
    lit "dhieec";
    lit "bakɛl";
    lit "duɔɔŋ";
    lit "laath";
    lit "minit";
    lit "thaak";
    lit "thoor";
    lit "ŋuaan";
    lit "diɔk";
    lit "duat";
    lit "duɔɔ";
    lit "guak";
    lit "jiec";
    lit "jiɔk";
    lit "ruun";
    lit "ruɔn";
    lit "thoo";
    lit "tiop";
    lit "tɛɛr";
    lit "walɛ";
    lit "caŋ";
    lit "dua";
    lit "gmt";
    lit "kor";
    lit "kur";
    lit "laa";
    lit "now";
    lit "pan";
    lit "pay";
    lit "pɛt";
    lit "rɛw";
    lit "tid";
    lit "tɛɛ";
    lit "utc";
    lit "am";
    lit "pm";
    lit "rw";
    lit "tŋ";
    lit " ";
    lit "'";
    lit "+";
    lit ",";
    lit "-";
    lit ".";
    lit "/";
    lit ":";
    lit ";";
    lit "@";
    lit "[";
    lit "]";
    lit "z";
    lit "|"] |}.

(** nyn.go:10-97 *)
Definition loc_nyn : locale := Eval vm_compute in
  {| ld_name := lit "nyn"; ld_order := lit "DMY"; ld_nospacing := false; ld_splitter := 0;
    ld_charset := runes (lit "/bcdeghijklnorstuwxyz");
    ld_abbr := [];
    ld_simpl := [];
    ld_trans := [(lit "okwaikumi na ibiri", [lit "december"]);
    (lit "okwaikumi na kumwe", [lit "november"]);
    (lit "obucweka/esekendi", [lit "second"]);
    (lit "okwamushanju", [lit "july"]);
    (lit "okwakashatu", [lit "march"]);
    (lit "okwakataana", [lit "may"]);
    (lit "okwamukaaga", [lit "june"]);
    (lit "okwamunaana", [lit "august"]);
    (lit "okwokubanza", [lit "january"]);
    (lit "orwakashatu", [lit "wednesday"]);
    (lit "orwakataano", [lit "friday"]);
    (lit "orwamukaaga", [lit "saturday"]);
    (lit "orwokubanza", [lit "monday"]);
    (lit "okwakabiri", [lit "february"]);
    (lit "okwamwenda", [lit "september"]);
    (lit "orwakabiri", [lit "tuesday"]);
    (lit "okwaikumi", [lit "october"]);
    (lit "edakiika", [lit "minute"]);
    (lit "okwakana", [lit "april"]);
    (lit "orwakana", [lit "thursday"]);
    (lit "eizooba", [lit "day"]);
    (lit "esande", [lit "week"]);
    (lit "omwaka", [lit "year"]);
    (lit "omwezi", [lit "month"]);
    (lit "shaaha", [lit "hour"]);
    (lit "sande", [lit "sunday"]);
    (lit "gmt", [lit "gmt"]);
    (lit "kbr", [lit "february"]);
    (lit "kbz", [lit "january"]);
    (lit "kkm", [lit "october"]);
    (lit "kkn", [lit "april"]);
    (lit "kmk", [lit "june"]);
    (lit "kmn", [lit "august"]);
    (lit "kms", [lit "july"]);
    (lit "kmw", [lit "september"]);
    (lit "knb", [lit "december"]);
    (lit "knk", [lit "november"]);
    (lit "kst", [lit "march"]);
    (lit "ktn", [lit "may"]);
    (lit "okb", [lit "tuesday"]);
    (lit "okn", [lit "thursday"]);
    (lit "oks", [lit "wednesday"]);
    (lit "okt", [lit "friday"]);
    (lit "omk", [lit "saturday"]);
    (lit "ork", [lit "monday"]);
    (lit "san", [lit "sunday"]);
    (lit "utc", [lit "utc"]);
    (lit "am", [lit "am"]);
    (lit "pm", [lit "pm"]);
    (lit " ", [lit " "]);
    (lit "'", [lit ""]);
    (lit "+", [lit "+"]);
    (lit ",", [lit ""]);
    (lit "-", [lit "-"]);
    (lit ".", [lit "."]);
    (lit "/", [lit "/"]);
    (lit ":", [lit ":"]);
    (lit ";", [lit ""]);
    (lit "@", [lit ""]);
    (lit "[", [lit ""]);
    (lit "]", [lit ""]);
    (lit "z", [lit "z"]);
    (lit "|", [lit ""])];
    ld_reltype := [(lit "nyenkyakare", lit "in 1 day");
    (lit "nyomwabazyo", lit "1 day ago");
    (lit "this minute", lit "0 minute ago");
    (lit "last month", lit "1 month ago");
    (lit "next month", lit "in 1 month");
    (lit "this month", lit "0 month ago");
    (lit "last week", lit "1 week ago");
    (lit "last year", lit "1 year ago");
    (lit "next week", lit "in 1 week");
    (lit "next year", lit "in 1 year");
    (lit "this hour", lit "0 hour ago");
    (lit "this week", lit "0 week ago");
    (lit "this year", lit "0 year ago");
    (lit "erizooba", lit "0 day ago");
    (lit "now", lit "0 second ago")];
    ld_relrx := [];
    ld_rx := None;
    ld_rx_exact := None;
    ld_known := [lit "okwaikumi na ibiri";
    lit "okwaikumi na kumwe";
    lit "obucweka/esekendi";
    lit "okwamushanju";
    lit "nyenkyakare";
    lit "nyomwabazyo";
    lit "okwakashatu";
    lit "okwakataana";
    lit "okwamukaaga";
    lit "okwamunaana";
    lit "okwokubanza";
    lit "orwakashatu";
    lit "orwakataano";
    lit "orwamukaaga";
    lit "orwokubanza";
    lit "this minute";
    lit "last month";
    lit "next month";
    lit "okwakabiri";
    lit "okwamwenda";
    lit "orwakabiri";
    lit "this month";
    lit "last week";
    lit "last year";
    lit "next week";
    lit "next year";
    lit "okwaikumi";
    lit "this hour";
    lit "this week";
    lit "this year";
    lit "edakiika";
    lit "erizooba";
    lit "okwakana";
    lit "orwakana";
    lit "eizooba";
    lit "esande";
    lit "omwaka";
    lit "omwezi";
    lit "shaaha";
    lit "sande";
    lit "gmt";
    lit "kbr";
    lit "kbz";
    lit "kkm";
    lit "kkn";
    lit "kmk";
    lit "kmn";
    lit "kms";
    lit "kmw";
    lit "knb";
    lit "knk";
    lit "kst";
    lit "ktn";
    lit "now";
    lit "okb";
    lit "okn";
    lit "oks";
    lit "okt";
    lit "omk";
    lit "ork";
    lit "san";
    lit "utc";
    lit "am";
    lit "pm";
    lit " ";
    lit "'";
    lit "+";
    lit ",";
    lit "-";
    lit ".";
    lit "/";
    lit ":";
    lit ";";
    lit "@";
    lit "[";
    lit "]";
    lit "z";
    lit "|"] |}.

(** om.go:11-100 *)
Definition loc_om : locale := Eval vm_compute in
  {| ld_name := lit "om"; ld_order := lit "DMY"; ld_nospacing := false; ld_splitter := 0;
    ld_charset := runes (lit "bcdefghijklnorstuwxyz");
    ld_abbr := [];
    ld_simpl := [];
    ld_trans := [(lit "onkololeessa", [lit "october"]);
    (lit "bitooteessa", [lit "march"]);
    (lit "guraandhala", [lit "february"]);
    (lit "adooleessa", [lit "july"]);
    (lit "waxabajjii", [lit "june"]);
    (lit "fuulbana", [lit "september"]);
    (lit "amajjii", [lit "january"]);
    (lit "dilbata", [lit "sunday"]);
    (lit "hagayya", [lit "august"]);
    (lit "jimaata", [lit "friday"]);
    (lit "kamiisa", [lit "thursday"]);
    (lit "qibxata", [lit "tuesday"]);
    (lit "sadaasa", [lit "november"]);
    (lit "sanbata", [lit "saturday"]);
    (lit "wiixata", [lit "monday"]);
    (lit "caamsa", [lit "may"]);
    (lit "minute", [lit "minute"]);
    (lit "muddee", [lit "december"]);
    (lit "roobii", [lit "wednesday"]);
    (lit "second", [lit "second"]);
    (lit "month", [lit "month"]);
    (lit "elba", [lit "april"]);
    (lit "hour", [lit "hour"]);
    (lit "week", [lit "week"]);
    (lit "year", [lit "year"]);
    (lit "ado", [lit "july"]);
    (lit "ama", [lit "january"]);
    (lit "bit", [lit "march"]);
    (lit "cam", [lit "may"]);
    (lit "day", [lit "day"]);
    (lit "dil", [lit "sunday"]);
    (lit "elb", [lit "april"]);
    (lit "ful", [lit "september"]);
    (lit "gmt", [lit "gmt"]);
    (lit "gur", [lit "february"]);
    (lit "hag", [lit "august"]);
    (lit "jim", [lit "friday"]);
    (lit "kam", [lit "thursday"]);
    (lit "mud", [lit "december"]);
    (lit "onk", [lit "october"]);
    (lit "qib", [lit "tuesday"]);
    (lit "rob", [lit "wednesday"]);
    (lit "sad", [lit "november"]);
    (lit "san", [lit "saturday"]);
    (lit "utc", [lit "utc"]);
    (lit "wax", [lit "june"]);
    (lit "wix", [lit "monday"]);
    (lit "am", [lit "am"]);
    (lit "pm", [lit "pm"]);
    (lit "wb", [lit "pm"]);
    (lit "wd", [lit "am"]);
    (lit " ", [lit " "]);
    (lit "'", [lit ""]);
    (lit "+", [lit "+"]);
    (lit ",", [lit ""]);
    (lit "-", [lit "-"]);
    (lit ".", [lit "."]);
    (lit "/", [lit "/"]);
    (lit ":", [lit ":"]);
    (lit ";", [lit ""]);
    (lit "@", [lit ""]);
    (lit "[", [lit ""]);
    (lit "]", [lit ""]);
    (lit "z", [lit "z"]);
    (lit "|", [lit ""])];
    ld_reltype := [(lit "this minute", lit "0 minute ago");
    (lit "last month", lit "1 month ago");
    (lit "next month", lit "in 1 month");
    (lit "this month", lit "0 month ago");
    (lit "last week", lit "1 week ago");
    (lit "last year", lit "1 year ago");
    (lit "next week", lit "in 1 week");
    (lit "next year", lit "in 1 year");
    (lit "this hour", lit "0 hour ago");
    (lit "this week", lit "0 week ago");
    (lit "this year", lit "0 year ago");
    (lit "yesterday", lit "1 day ago");
    (lit "tomorrow", lit "in 1 day");
    (lit "today", lit "0 day ago");
    (lit "now", lit "0 second ago")];
    ld_relrx := [];
    ld_rx := None;
    ld_rx_exact := None;
    ld_known := [lit "onkololeessa";
    lit "bitooteessa";
    lit "guraandhala";
    lit "this minute";
    lit "adooleessa";
    lit "last month";
    lit "next month";
    lit "this month";
    lit "waxabajjii";
    lit "last week";
    lit "last year";
    lit "next week";
    lit "next year";
    lit "this hour";
    lit "this week";
    lit "this year";
    lit "yesterday";
    lit "fuulbana";
    lit "tomorrow";
    lit "amajjii";
    lit "dilbata";
    lit "hagayya";
    lit "jimaata";
    lit "kamiisa";
    lit "qibxata";
    lit "sadaasa";
    lit "sanbata";
    lit "wiixata";
    lit "caamsa";
    lit "minute";
    lit "muddee";
    lit "roobii";
    lit "second";
    lit "month";
    lit "today";
    lit "elba";
    lit "hour";
    lit "week";
    lit "year";
    lit "ado";
    lit "ama";
    lit "bit";
    lit "cam";
    lit "day";
    lit "dil";
    lit "elb";
    lit "ful";
    lit "gmt";
    lit "gur";
    lit "hag";
    lit "jim";
    lit "kam";
    lit "mud";
    lit "now";
    lit "onk";
    lit "qib";
    lit "rob";
    lit "sad";
    lit "san";
    lit "utc";
    lit "wax";
    lit "wix";
    lit "am";
    lit "pm";
    lit "wb";
    lit "wd";
    lit " ";
    lit "'";
    lit "+";
    lit ",";
    lit "-";
    lit ".";
    lit "/";
    lit ":";
    lit ";";
    lit "@";
    lit "[";
    lit "]";
    lit "z";
    lit "|"] |}.

(** om.go:102-105 *)
Definition own_om_KE : locale := Eval vm_compute in
  {| ld_name := lit "om-KE"; ld_order := lit "DMY"; ld_nospacing := false; ld_splitter := 0;
    ld_charset := runes (lit "");
    ld_abbr := [];
    ld_simpl := [];
    ld_trans := [];
    ld_reltype := [];
    ld_relrx := [];
    ld_rx := None;
    ld_rx_exact := None;
    ld_known := [] |}.
Definition loc_om_KE : locale := merge loc_om own_om_KE.

(** or.go:10-85 *)
Definition loc_or : locale := Eval vm_compute in
  {| ld_name := lit "or"; ld_order := lit "DMY"; ld_nospacing := false; ld_splitter := 0;
    ld_charset := runes (lit "cdeghiklnorstuwxyzଅଆଇକଗଙଚଜଟଡଧନପଫବଭମରଲଳଶଷସାିୀୁୃେୋ୍");
    ld_abbr := [];
    ld_simpl := [];
    ld_trans := [(lit "ସେପଟେମବର", [lit "september"]);
    (lit "ମଙଗଳବାର", [lit "tuesday"]);
    (lit "minute", [lit "minute"]);
    (lit "second", [lit "second"]);
    (lit "ଅକଟୋବର", [lit "october"]);
    (lit "ଜାନଆରୀ", [lit "january"]);
    (lit "ଡସେମବର", [lit "december"]);
    (lit "ନଭେମବର", [lit "november"]);
    (lit "ଫେବଆରୀ", [lit "february"]);
    (lit "ଶକରବାର", [lit "friday"]);
    (lit "ସୋମବାର", [lit "monday"]);
    (lit "month", [lit "month"]);
    (lit "ଅପରେଲ", [lit "april"]);
    (lit "ଗରବାର", [lit "thursday"]);
    (lit "ବଧବାର", [lit "wednesday"]);
    (lit "ମାରଚଚ", [lit "march"]);
    (lit "ରବବାର", [lit "sunday"]);
    (lit "ଶନବାର", [lit "saturday"]);
    (lit "hour", [lit "hour"]);
    (lit "week", [lit "week"]);
    (lit "year", [lit "year"]);
    (lit "ଅଗଷଟ", [lit "august"]);
    (lit "ଜଲାଇ", [lit "july"]);
    (lit "ମଙଗଳ", [lit "tuesday"]);
    (lit "day", [lit "day"]);
    (lit "gmt", [lit "gmt"]);
    (lit "utc", [lit "utc"]);
    (lit "ଶକର", [lit "friday"]);
    (lit "ସୋମ", [lit "monday"]);
    (lit "am", [lit "am"]);
    (lit "pm", [lit "pm"]);
    (lit "ଗର", [lit "thursday"]);
    (lit "ଜନ", [lit "june"]);
    (lit "ବଧ", [lit "wednesday"]);
    (lit "ମଇ", [lit "may"]);
    (lit "ରବ", [lit "sunday"]);
    (lit "ଶନ", [lit "saturday"]);
    (lit " ", [lit " "]);
    (lit "'", [lit ""]);
    (lit "+", [lit "+"]);
    (lit ",", [lit ""]);
    (lit "-", [lit "-"]);
    (lit ".", [lit "."]);
    (lit "/", [lit "/"]);
    (lit ":", [lit ":"]);
    (lit ";", [lit ""]);
    (lit "@", [lit ""]);
    (lit "[", [lit ""]);
    (lit "]", [lit ""]);
    (lit "z", [lit "z"]);
    (lit "|", [lit ""])];
    ld_reltype := [(lit "this minute", lit "0 minute ago");
    (lit "last month", lit "1 month ago");
    (lit "next month", lit "in 1 month");
    (lit "this month", lit "0 month ago");
    (lit "last week", lit "1 week ago");
    (lit "last year", lit "1 year ago");
    (lit "next week", lit "in 1 week");
    (lit "next year", lit "in 1 year");
    (lit "this hour", lit "0 hour ago");
    (lit "this week", lit "0 week ago");
    (lit "this year", lit "0 year ago");
    (lit "yesterday", lit "1 day ago");
    (lit "tomorrow", lit "in 1 day");
    (lit "today", lit "0 day ago");
    (lit "now", lit "0 second ago")];
    ld_relrx := [];
    ld_rx := None;
    ld_rx_exact := None;
    ld_known := [lit "this minute";
    lit "last month";
    lit "next month";
    lit "this month";
    lit "last week";
    lit "last year";
    lit "next week";
    lit "next year";
    lit "this hour";
    lit "this week";
    lit "this year";
    lit "yesterday";
    lit "tomorrow";
    lit "ସେପଟେମବର";
    lit "ମଙଗଳବାର";
    lit "minute";
    lit "second";
    lit "ଅକଟୋବର";
    lit "ଜାନଆରୀ";
    lit "ଡସେମବର";
    lit "ନଭେମବର";
    lit "ଫେବଆରୀ";
    lit "ଶକରବାର";
    lit "ସୋମବାର";
    lit "month";
    lit "today";
    lit "ଅପରେଲ";
    lit "ଗରବାର";
    lit "ବଧବାର";
    lit "ମାରଚଚ";
    lit "ରବବାର";
    lit "ଶନବାର";
    lit "hour";
    lit "week";
    lit "year";
    lit "ଅଗଷଟ";
    lit "ଜଲାଇ";
    lit "ମଙଗଳ";
    lit "day";
    lit "gmt";
    lit "now";
    lit "utc";
    lit "ଶକର";
    lit "ସୋମ";
    lit "am";
    lit "pm";
    lit "ଗର";
    lit "ଜନ";
    lit "ବଧ";
    lit "ମଇ";
    lit "ରବ";
    lit "ଶନ";
    lit " ";
    lit "'";
    lit "+";
    lit ",";
    lit "-";
    lit ".";
    lit "/";
    lit ":";
    lit ";";
    lit "@";
    lit "[";
    lit "]";
    lit "z";
    lit "|"] |}.

(** os.go:13-124 *)
Definition loc_os : locale := Eval vm_compute in
  {| ld_name := lit "os"; ld_order := lit "DMY"; ld_nospacing := false; ld_splitter := 0;
    ld_charset := runes (lit "ceghiklnorstuwxyzабвгдезийклмнопрстуфхцъыьюяӕ");
    ld_abbr := [];
    ld_simpl := [];
    ld_trans := [(lit "ӕмбисбоны размӕ", [lit "am"]);
    (lit "ӕмбисбоны фӕстӕ", [lit "pm"]);
    (lit "къуырисӕр", [lit "monday"]);
    (lit "маирӕмбон", [lit "friday"]);
    (lit "хуыцаубон", [lit "sunday"]);
    (lit "мартъииы", [lit "march"]);
    (lit "сентябры", [lit "september"]);
    (lit "сентябрь", [lit "september"]);
    (lit "цыппӕрӕм", [lit "thursday"]);
    (lit "ӕртыццӕг", [lit "wednesday"]);
    (lit "августы", [lit "august"]);
    (lit "декабры", [lit "december"]);
    (lit "декабрь", [lit "december"]);
    (lit "октябры", [lit "october"]);
    (lit "октябрь", [lit "october"]);
    (lit "февралы", [lit "february"]);
    (lit "февраль", [lit "february"]);
    (lit "август", [lit "august"]);
    (lit "апрелы", [lit "april"]);
    (lit "апрель", [lit "april"]);
    (lit "дыццӕг", [lit "tuesday"]);
    (lit "къуыри", [lit "week"]);
    (lit "мартъи", [lit "march"]);
    (lit "ноябры", [lit "november"]);
    (lit "ноябрь", [lit "november"]);
    (lit "секунд", [lit "second"]);
    (lit "январы", [lit "january"]);
    (lit "январь", [lit "january"]);
    (lit "минут", [lit "minute"]);
    (lit "сабат", [lit "saturday"]);
    (lit "сахат", [lit "hour"]);
    (lit "июлы", [lit "july"]);
    (lit "июль", [lit "july"]);
    (lit "июны", [lit "june"]);
    (lit "июнь", [lit "june"]);
    (lit "маиы", [lit "may"]);
    (lit "март", [lit "march"]);
    (lit "нояб", [lit "november"]);
    (lit "сент", [lit "september"]);
    (lit "февр", [lit "february"]);
    (lit "gmt", [lit "gmt"]);
    (lit "utc", [lit "utc"]);
    (lit "авг", [lit "august"]);
    (lit "апр", [lit "april"]);
    (lit "бон", [lit "day"]);
    (lit "дек", [lit "december"]);
    (lit "дцг", [lit "tuesday"]);
    (lit "крс", [lit "monday"]);
    (lit "маи", [lit "may"]);
    (lit "мар", [lit "march"]);
    (lit "мрб", [lit "friday"]);
    (lit "мӕи", [lit "month"]);
    (lit "ноя", [lit "november"]);
    (lit "окт", [lit "october"]);
    (lit "сбт", [lit "saturday"]);
    (lit "сен", [lit "september"]);
    (lit "фев", [lit "february"]);
    (lit "хцб", [lit "sunday"]);
    (lit "цпр", [lit "thursday"]);
    (lit "янв", [lit "january"]);
    (lit "ӕрт", [lit "wednesday"]);
    (lit "am", [lit "am"]);
    (lit "pm", [lit "pm"]);
    (lit "аз", [lit "year"]);
    (lit " ", [lit " "]);
    (lit "'", [lit ""]);
    (lit "+", [lit "+"]);
    (lit ",", [lit ""]);
    (lit "-", [lit "-"]);
    (lit ".", [lit "."]);
    (lit "/", [lit "/"]);
    (lit ":", [lit ":"]);
    (lit ";", [lit ""]);
    (lit "@", [lit ""]);
    (lit "[", [lit ""]);
    (lit "]", [lit ""]);
    (lit "z", [lit "z"]);
    (lit "|", [lit ""])];
    ld_reltype := [(lit "this minute", lit "0 minute ago");
    (lit "last month", lit "1 month ago");
    (lit "next month", lit "in 1 month");
    (lit "this month", lit "0 month ago");
    (lit "last week", lit "1 week ago");
    (lit "last year", lit "1 year ago");
    (lit "next week", lit "in 1 week");
    (lit "next year", lit "in 1 year");
    (lit "this hour", lit "0 hour ago");
    (lit "this week", lit "0 week ago");
    (lit "this year", lit "0 year ago");
    (lit "абон", lit "0 day ago");
    (lit "знон", lit "1 day ago");
    (lit "now", lit "0 second ago");
    (lit "сом", lit "in 1 day")];
    ld_relrx := [(rx "(?i)(\d+[.,]?\d*) сахаты размӕ", lit "$1 hour ago");
    (rx "(?i)(\d+[.,]?\d*) сахаты фӕстӕ", lit "in $1 hour");
    (rx "(?i)(\d+[.,]?\d*) бон раздӕр", lit "$1 day ago");
    (rx "(?i)(\d+[.,]?\d*) боны размӕ", lit "$1 day ago");
    (rx "(?i)(\d+[.,]?\d*) боны фӕстӕ", lit "in $1 day")];
    ld_rx := Some (rx "(?i)(\A|[^\pL\pM\d]|_)(\d+[.,]?\d* сахаты размӕ|\d+[.,]?\d* сахаты фӕстӕ|\d+[.,]?\d* бон раздӕр|\d+[.,]?\d* боны размӕ|\d+[.,]?\d* боны фӕстӕ)(\z|[^\pL\pM\d]|_)");
    ld_rx_exact := Some (rx "(?i)^(\d+[.,]?\d* сахаты размӕ|\d+[.,]?\d* сахаты фӕстӕ|\d+[.,]?\d* бон раздӕр|\d+[.,]?\d* боны размӕ|\d+[.,]?\d* боны фӕстӕ)$");
    ld_known := [lit "ӕмбисбоны размӕ";
    lit "ӕмбисбоны фӕстӕ";
    lit "this minute";
    lit "last month";
    lit "next month";
    lit "this month";
    lit "last week";
    lit "last year";
    lit "next week";
    lit "next year";
    lit "this hour";
    lit "this week";
    lit "this year";
    lit "къуырисӕр";
    lit "маирӕмбон";
    lit "хуыцаубон";
    lit "мартъииы";
    lit "сентябры";
    lit "сентябрь";
    lit "цыппӕрӕм";
    lit "ӕртыццӕг";
    lit "августы";
    lit "декабры";
    lit "декабрь";
    lit "октябры";
    lit "октябрь";
    lit "февралы";
    lit "февраль";
    lit "август";
    lit "апрелы";
    lit "апрель";
    lit "дыццӕг";
    lit "къуыри";
    lit "мартъи";
    lit "ноябры";
    lit "ноябрь";
    lit "секунд";
    lit "январы";
    lit "январь";
    lit "минут";
    lit "сабат";
    lit "сахат";
    lit "абон";
    lit "знон";
    lit "июлы";
    lit "июль";
    lit "июны";
    lit "июнь";
    lit "маиы";
    lit "март";
    lit "нояб";
    lit "сент";
    lit "февр";
    lit "gmt";
    lit "now";
    lit "utc";
    lit "авг";
    lit "апр";
    lit "бон";
    lit "дек";
    lit "дцг";
    lit "крс";
    lit "маи";
    lit "мар";
    lit "мрб";
    lit "мӕи";
    lit "ноя";
    lit "окт";
    lit "сбт";
    lit "сен";
    lit "сом";
    lit "фев";
    lit "хцб";
    lit "цпр";
    lit "янв";
    lit "ӕрт";
    lit "am";
    lit "pm";
    lit "аз";
    lit " ";
    lit "'";
    lit "+";
    lit ",";
    lit "-";
    lit ".";
    lit "/";
    lit ":";
    lit ";";
    lit "@";
    lit "[";
    lit "]";
    lit "z";
    lit "|"] |}.

(** os.go:126-129 *)
Definition own_os_RU : locale := Eval vm_compute in
  {| ld_name := lit "os-RU"; ld_order := lit "DMY"; ld_nospacing := false; ld_splitter := 0;
    ld_charset := runes (lit "");
    ld_abbr := [];
    ld_simpl := [];
    ld_trans := [];
    ld_reltype := [];
    ld_relrx := [];
    ld_rx := None;
    ld_rx_exact := None;
    ld_known := [] |}.
Definition loc_os_RU : locale := merge loc_os own_os_RU.

(** pa-arab.go:10-77 *)
Definition loc_pa_Arab : locale := Eval vm_compute in
  {| ld_name := lit "pa-Arab"; ld_order := lit "DMY"; ld_nospacing := false; ld_splitter := 0;
    ld_charset := runes (lit "cdeghiklnorstuwxyzئابتجدرسعفلمنويُٹپچکگھہی");
    ld_abbr := [];
    ld_simpl := [];
    ld_trans := [(lit "second", [lit "second"]);
    (lit "اکتوبر", [lit "october"]);
    (lit "جمعرات", [lit "thursday"]);
    (lit "جولايی", [lit "july"]);
    (lit "اتوار", [lit "sunday"]);
    (lit "اپریل", [lit "april"]);
    (lit "جنوری", [lit "january"]);
    (lit "دسمبر", [lit "december"]);
    (lit "ستمبر", [lit "september"]);
    (lit "فروری", [lit "february"]);
    (lit "مہينا", [lit "month"]);
    (lit "نومبر", [lit "november"]);
    (lit "گھنٹا", [lit "hour"]);
    (lit "اگست", [lit "august"]);
    (lit "جمعہ", [lit "friday"]);
    (lit "مارچ", [lit "march"]);
    (lit "منگل", [lit "tuesday"]);
    (lit "ورھا", [lit "year"]);
    (lit "ہفتہ", [lit "week"; lit "saturday"]);
    (lit "gmt", [lit "gmt"]);
    (lit "utc", [lit "utc"]);
    (lit "بدھ", [lit "wednesday"]);
    (lit "جون", [lit "june"]);
    (lit "دين", [lit "day"]);
    (lit "منٹ", [lit "minute"]);
    (lit "پیر", [lit "monday"]);
    (lit "am", [lit "am"]);
    (lit "pm", [lit "pm"]);
    (lit "مي", [lit "may"]);
    (lit " ", [lit " "]);
    (lit "'", [lit ""]);
    (lit "+", [lit "+"]);
    (lit ",", [lit ""]);
    (lit "-", [lit "-"]);
    (lit ".", [lit "."]);
    (lit "/", [lit "/"]);
    (lit ":", [lit ":"]);
    (lit ";", [lit ""]);
    (lit "@", [lit ""]);
    (lit "[", [lit ""]);
    (lit "]", [lit ""]);
    (lit "z", [lit "z"]);
    (lit "|", [lit ""])];
    ld_reltype := [(lit "this minute", lit "0 minute ago");
    (lit "last month", lit "1 month ago");
    (lit "next month", lit "in 1 month");
    (lit "this month", lit "0 month ago");
    (lit "last week", lit "1 week ago");
    (lit "last year", lit "1 year ago");
    (lit "next week", lit "in 1 week");
    (lit "next year", lit "in 1 year");
    (lit "this hour", lit "0 hour ago");
    (lit "this week", lit "0 week ago");
    (lit "this year", lit "0 year ago");
    (lit "yesterday", lit "1 day ago");
    (lit "tomorrow", lit "in 1 day");
    (lit "today", lit "0 day ago");
    (lit "now", lit "0 second ago")];
    ld_relrx := [];
    ld_rx := None;
    ld_rx_exact := None;
    ld_known := [lit "this minute";
    lit "last month";
    lit "next month";
    lit "this month";
    lit "last week";
    lit "last year";
    lit "next week";
    lit "next year";
    lit "this hour";
    lit "this week";
    lit "this year";
    lit "yesterday";
    lit "tomorrow";
    lit "second";
    lit "اکتوبر";
    lit "جمعرات";
    lit "جولايی";
    lit "today";
    lit "اتوار";
    lit "اپریل";
    lit "جنوری";
    lit "دسمبر";
    lit "ستمبر";
    lit "فروری";
    lit "مہينا";
    lit "نومبر";
    lit "گھنٹا";
    lit "اگست";
    lit "جمعہ";
    lit "مارچ";
    lit "منگل";
    lit "ورھا";
    lit "ہفتہ";
    lit "gmt";
    lit "now";
    lit "utc";
    lit "بدھ";
    lit "جون";
    lit "دين";
    lit "منٹ";
    lit "پیر";
    lit "am";
    lit "pm";
    lit "مي";
    lit " ";
    lit "'";
    lit "+";
    lit ",";
    lit "-";
    lit ".";
    lit "/";
    lit ":";
    lit ";";
    lit "@";
    lit "[";
    lit "]";
    lit "z";
    lit "|"] |}.

(** all patterns above are accepted by the syntax parser *)
Example patterns_ok : forallb (fun s => match parse_regex s with Some _ => true | None => false end)
  [lit "(?i)(\A|[^\pL\pM\d]|_)(\d+[.,]?\d* seconden geleden|\d+[.,]?\d* maanden geleden|\d+[.,]?\d* minuten geleden|\d+[.,]?\d* seconde geleden|\d+[.,]?\d* minuut geleden|\d+[.,]?\d* dagen geleden|\d+[.,]?\d* maand geleden|\d+[.,]?\d* weken geleden|over \d+[.,]?\d* seconden|\d+[.,]?\d* jaar geleden|\d+[.,]?\d* week geleden|over \d+[.,]?\d* maanden|over \d+[.,]?\d* minuten|over \d+[.,]?\d* seconde|\d+[.,]?\d* dag geleden|\d+[.,]?\d* dgn geleden|\d+[.,]?\d* min geleden|\d+[.,]?\d* sec geleden|\d+[.,]?\d* uur geleden|over \d+[.,]?\d* minuut|over \d+[.,]?\d* dagen|over \d+[.,]?\d* maand|over \d+[.,]?\d* weken|over \d+[.,]?\d* jaar|over \d+[.,]?\d* week|over \d+[.,]?\d* dag|over \d+[.,]?\d* dgn|over \d+[.,]?\d* min|over \d+[.,]?\d* sec|over \d+[.,]?\d* uur)(\z|[^\pL\pM\d]|_)";
  lit "(?i)(\A|[^\pL\pM\d]|_)(\d+[.,]?\d* sena ilu|\d+[.,]?\d* snin ilu)(\z|[^\pL\pM\d]|_)";
  lit "(?i)(\A|[^\pL\pM\d]|_)(\d+[.,]?\d* сахаты размӕ|\d+[.,]?\d* сахаты фӕстӕ|\d+[.,]?\d* бон раздӕр|\d+[.,]?\d* боны размӕ|\d+[.,]?\d* боны фӕстӕ)(\z|[^\pL\pM\d]|_)";
  lit "(?i)(\A|[^\pL\pM\d]|_)(\d+[.,]?\d* секундын дараа|\d+[.,]?\d* минутын дараа|\d+[.,]?\d* секундын өмнө|\d+[.,]?\d* 7х-иин дараа|\d+[.,]?\d* жилиин дараа|\d+[.,]?\d* минутын өмнө|\d+[.,]?\d* цагиин дараа|\d+[.,]?\d* өдриин дараа|\d+[.,]?\d* 7х-иин өмнө|\d+[.,]?\d* жилиин өмнө|\d+[.,]?\d* сарын дараа|\d+[.,]?\d* цагиин өмнө|\d+[.,]?\d* өдриин өмнө|\d+[.,]?\d* сарын өмнө|\d+[.,]?\d* мин дараа|\d+[.,]?\d* сек дараа|\d+[.,]?\d* мин өмнө|\d+[.,]?\d* сек өмнө|\d+[.,]?\d* ц дараа|\d+[.,]?\d* ц өмнө|\d+[.,]?\d* өдөрт)(\z|[^\pL\pM\d]|_)";
  lit "(?i)(\A|[^\pL\pM\d]|_)(\d+[.,]?\d* ثانیه دله|\d+[.,]?\d* ثانیه پیش|\d+[.,]?\d* دقیقه دله|\d+[.,]?\d* ساعت دله|\d+[.,]?\d* ساعت پیش|\d+[.,]?\d* هفته دله|\d+[.,]?\d* هفته پیش|\d+[.,]?\d* دقه دله|\d+[.,]?\d* دقه پیش|\d+[.,]?\d* روز دله|\d+[.,]?\d* روز پیش|\d+[.,]?\d* سال دله|\d+[.,]?\d* سال پیش|\d+[.,]?\d* ماه دله|\d+[.,]?\d* ماه پیش)(\z|[^\pL\pM\d]|_)";
  lit "(?i)(\A|[^\pL\pM\d]|_)(\d+[.,]?\d* आठवडयापरवी|\d+[.,]?\d* महिनयापरवी|\d+[.,]?\d* मिनिटापरवी|\d+[.,]?\d* आठवडयामधय|\d+[.,]?\d* दिवसापरवी|\d+[.,]?\d* महिनयामधय|\d+[.,]?\d* मिनि परवी|\d+[.,]?\d* मिनिटामधय|\d+[.,]?\d* तासापरवी|\d+[.,]?\d* दिवसामधय|\d+[.,]?\d* मिनि मधय|\d+[.,]?\d* वरषापरवी|\d+[.,]?\d* सकदापरवी|\d+[.,]?\d* तासामधय|\d+[.,]?\d* वरषामधय|\d+[.,]?\d* सकदामधय|\d+[.,]?\d* स परवी|\d+[.,]?\d* स मधय)(\z|[^\pL\pM\d]|_)";
  lit "(?i)(\A|[^\pL\pM\d]|_)(\d+[.,]?\d* महिना पहिल|\d+[.,]?\d* घणटा पहिल|\d+[.,]?\d* मिनट पहिल|\d+[.,]?\d* सकणड पहिल|\d+[.,]?\d* हपता पहिल|\d+[.,]?\d* दिन पहिल|\d+[.,]?\d* महिनामा|\d+[.,]?\d* वरष अघि|\d+[.,]?\d* घणटामा|\d+[.,]?\d* मिनटमा|\d+[.,]?\d* सकणडमा|\d+[.,]?\d* हपतामा|\d+[.,]?\d* दिनमा|\d+[.,]?\d* वरषमा)(\z|[^\pL\pM\d]|_)";
  lit "(?i)(\A|[^\pL\pM\d]|_)(\d+[.,]?\d* മണികകർ മമപ|\d+[.,]?\d* മിനിററ മമപ|\d+[.,]?\d* സെകകൻഡ മമപ|\d+[.,]?\d* ദിവസം മമപ|\d+[.,]?\d* ദിവസതതിൽ|\d+[.,]?\d* മണികകറിൽ|\d+[.,]?\d* മാസം മമപ|\d+[.,]?\d* മിനിററിൽ|\d+[.,]?\d* വർഷം മമപ|\d+[.,]?\d* സെകകൻഡിൽ|\d+[.,]?\d* ആഴച മമപ|\d+[.,]?\d* മാസതതിൽ|\d+[.,]?\d* വർഷതതിൽ|\d+[.,]?\d* ആഴചയിൽ)(\z|[^\pL\pM\d]|_)";
  lit "(?i)(\A|[^\pL\pM\d]|_)(dalam \d+[.,]?\d* minggu|\d+[.,]?\d* minggu lalu|dalam \d+[.,]?\d* bulan|dalam \d+[.,]?\d* minit|\d+[.,]?\d* bulan lalu|\d+[.,]?\d* minit lalu|\d+[.,]?\d* tahun lalu|dalam \d+[.,]?\d* hari|dalam \d+[.,]?\d* saat|\d+[.,]?\d* hari lalu|\d+[.,]?\d* saat lalu|dalam \d+[.,]?\d* jam|dalam \d+[.,]?\d* thn|\d+[.,]?\d* bln lalu|\d+[.,]?\d* jam lalu|\d+[.,]?\d* mgu lalu|\d+[.,]?\d* min lalu|\d+[.,]?\d* thn lalu|dlm \d+[.,]?\d* hari|dlm \d+[.,]?\d* saat|dlm \d+[.,]?\d* bln|dlm \d+[.,]?\d* jam|dlm \d+[.,]?\d* mgu|dlm \d+[.,]?\d* min)(\z|[^\pL\pM\d]|_)";
  lit "(?i)(\A|[^\pL\pM\d]|_)(for \d+[.,]?\d* minutter siden|for \d+[.,]?\d* sekunder siden|for \d+[.,]?\d* maneder siden|for \d+[.,]?\d* minutt siden|for \d+[.,]?\d* sekund siden|for \d+[.,]?\d* dager siden|for \d+[.,]?\d* maned siden|for \d+[.,]?\d* timer siden|for \d+[.,]?\d* døgn siden|for \d+[.,]?\d* time siden|for \d+[.,]?\d* uker siden|for \d+[.,]?\d* min siden|for \d+[.,]?\d* sek siden|for \d+[.,]?\d* uke siden|for \d+[.,]?\d* ar siden|for \d+[.,]?\d* md siden|for \d+[.,]?\d* d siden|for \d+[.,]?\d* t siden|for \d+[.,]?\d* u siden|om \d+[.,]?\d* minutter|om \d+[.,]?\d* sekunder|om \d+[.,]?\d* maneder|om \d+[.,]?\d* minutt|om \d+[.,]?\d* sekund|om \d+[.,]?\d* maned|om \d+[.,]?\d* timer|om \d+[.,]?\d* døgn|om \d+[.,]?\d* time|om \d+[.,]?\d* uker|om \d+[.,]?\d* min|om \d+[.,]?\d* sek|om \d+[.,]?\d* uke|om \d+[.,]?\d* ar|om \d+[.,]?\d* md|om \d+[.,]?\d* d|om \d+[.,]?\d* t|om \d+[.,]?\d* u|–\d+[.,]?\d* ar)(\z|[^\pL\pM\d]|_)";
  lit "(?i)(\A|[^\pL\pM\d]|_)(for \d+[.,]?\d* minutter siden|for \d+[.,]?\d* sekunder siden|for \d+[.,]?\d* maneder siden|for \d+[.,]?\d* minutt siden|for \d+[.,]?\d* sekund siden|for \d+[.,]?\d* maned siden|for \d+[.,]?\d* timer siden|for \d+[.,]?\d* døgn siden|for \d+[.,]?\d* time siden|for \d+[.,]?\d* uker siden|for \d+[.,]?\d* uke siden|for \d+[.,]?\d* ar siden|om \d+[.,]?\d* minutter|om \d+[.,]?\d* sekunder|om \d+[.,]?\d* maneder|om \d+[.,]?\d* minutt|om \d+[.,]?\d* sekund|om \d+[.,]?\d* maned|om \d+[.,]?\d* timer|om \d+[.,]?\d* døgn|om \d+[.,]?\d* time|om \d+[.,]?\d* uker|om \d+[.,]?\d* uke|om \d+[.,]?\d* ar)(\z|[^\pL\pM\d]|_)";
  lit "(?i)(\A|[^\pL\pM\d]|_)(пред \d+[.,]?\d* седмица|пред \d+[.,]?\d* седмици|пред \d+[.,]?\d* секунда|пред \d+[.,]?\d* секунди|пред \d+[.,]?\d* година|пред \d+[.,]?\d* години|пред \d+[.,]?\d* месеци|пред \d+[.,]?\d* минута|пред \d+[.,]?\d* минути|за \d+[.,]?\d* седмица|за \d+[.,]?\d* седмици|за \d+[.,]?\d* секунда|за \d+[.,]?\d* секунди|пред \d+[.,]?\d* месец|за \d+[.,]?\d* година|за \d+[.,]?\d* години|за \d+[.,]?\d* месеци|за \d+[.,]?\d* минута|за \d+[.,]?\d* минути|пред \d+[.,]?\d* дена|пред \d+[.,]?\d* часа|за \d+[.,]?\d* месец|пред \d+[.,]?\d* ден|пред \d+[.,]?\d* час|за \d+[.,]?\d* дена|за \d+[.,]?\d* часа|за \d+[.,]?\d* ден|за \d+[.,]?\d* час)(\z|[^\pL\pM\d]|_)";
  lit "(?i)(\A|[^\pL\pM\d]|_)(ပြးခသည \d+[.,]?\d* စကကန|ပြးခသည \d+[.,]?\d* နာရ|ပြးခသည \d+[.,]?\d* မနစ|ပြးခသည \d+[.,]?\d* နစ|ပြးခသည \d+[.,]?\d* ပတ|ပြးခသည \d+[.,]?\d* ရက|\d+[.,]?\d* စကကနအတငး|ပြးခသည \d+[.,]?\d* လ|\d+[.,]?\d* နာရအတငး|\d+[.,]?\d* မနစအတငး|\d+[.,]?\d* နစအတငး|\d+[.,]?\d* ပတအတငး|\d+[.,]?\d* ရကအတငး|\d+[.,]?\d* လအတငး)(\z|[^\pL\pM\d]|_)";
  lit "(?i)(\d+[.,]?\d*) 7х-иин дараа";
  lit "(?i)(\d+[.,]?\d*) 7х-иин өмнө";
  lit "(?i)(\d+[.,]?\d*) bln lalu";
  lit "(?i)(\d+[.,]?\d*) bulan lalu";
  lit "(?i)(\d+[.,]?\d*) dag geleden";
  lit "(?i)(\d+[.,]?\d*) dagen geleden";
  lit "(?i)(\d+[.,]?\d*) dgn geleden";
  lit "(?i)(\d+[.,]?\d*) hari lalu";
  lit "(?i)(\d+[.,]?\d*) jaar geleden";
  lit "(?i)(\d+[.,]?\d*) jam lalu";
  lit "(?i)(\d+[.,]?\d*) maand geleden";
  lit "(?i)(\d+[.,]?\d*) maanden geleden";
  lit "(?i)(\d+[.,]?\d*) mgu lalu";
  lit "(?i)(\d+[.,]?\d*) min geleden";
  lit "(?i)(\d+[.,]?\d*) min lalu";
  lit "(?i)(\d+[.,]?\d*) minggu lalu";
  lit "(?i)(\d+[.,]?\d*) minit lalu";
  lit "(?i)(\d+[.,]?\d*) minuten geleden";
  lit "(?i)(\d+[.,]?\d*) minuut geleden";
  lit "(?i)(\d+[.,]?\d*) saat lalu";
  lit "(?i)(\d+[.,]?\d*) sec geleden";
  lit "(?i)(\d+[.,]?\d*) seconde geleden";
  lit "(?i)(\d+[.,]?\d*) seconden geleden";
  lit "(?i)(\d+[.,]?\d*) sena ilu";
  lit "(?i)(\d+[.,]?\d*) snin ilu";
  lit "(?i)(\d+[.,]?\d*) tahun lalu";
  lit "(?i)(\d+[.,]?\d*) thn lalu";
  lit "(?i)(\d+[.,]?\d*) uur geleden";
  lit "(?i)(\d+[.,]?\d*) week geleden";
  lit "(?i)(\d+[.,]?\d*) weken geleden";
  lit "(?i)(\d+[.,]?\d*) бон раздӕр";
  lit "(?i)(\d+[.,]?\d*) боны размӕ";
  lit "(?i)(\d+[.,]?\d*) боны фӕстӕ";
  lit "(?i)(\d+[.,]?\d*) жилиин дараа";
  lit "(?i)(\d+[.,]?\d*) жилиин өмнө";
  lit "(?i)(\d+[.,]?\d*) мин дараа";
  lit "(?i)(\d+[.,]?\d*) мин өмнө";
  lit "(?i)(\d+[.,]?\d*) минутын дараа";
  lit "(?i)(\d+[.,]?\d*) минутын өмнө";
  lit "(?i)(\d+[.,]?\d*) сарын дараа";
  lit "(?i)(\d+[.,]?\d*) сарын өмнө";
  lit "(?i)(\d+[.,]?\d*) сахаты размӕ";
  lit "(?i)(\d+[.,]?\d*) сахаты фӕстӕ";
  lit "(?i)(\d+[.,]?\d*) сек дараа";
  lit "(?i)(\d+[.,]?\d*) сек өмнө";
  lit "(?i)(\d+[.,]?\d*) секундын дараа";
  lit "(?i)(\d+[.,]?\d*) секундын өмнө";
  lit "(?i)(\d+[.,]?\d*) ц дараа";
  lit "(?i)(\d+[.,]?\d*) ц өмнө";
  lit "(?i)(\d+[.,]?\d*) цагиин дараа";
  lit "(?i)(\d+[.,]?\d*) цагиин өмнө";
  lit "(?i)(\d+[.,]?\d*) өдриин дараа";
  lit "(?i)(\d+[.,]?\d*) өдриин өмнө";
  lit "(?i)(\d+[.,]?\d*) өдөрт";
  lit "(?i)(\d+[.,]?\d*) ثانیه دله";
  lit "(?i)(\d+[.,]?\d*) ثانیه پیش";
  lit "(?i)(\d+[.,]?\d*) دقه دله";
  lit "(?i)(\d+[.,]?\d*) دقه پیش";
  lit "(?i)(\d+[.,]?\d*) دقیقه دله";
  lit "(?i)(\d+[.,]?\d*) روز دله";
  lit "(?i)(\d+[.,]?\d*) روز پیش";
  lit "(?i)(\d+[.,]?\d*) ساعت دله";
  lit "(?i)(\d+[.,]?\d*) ساعت پیش";
  lit "(?i)(\d+[.,]?\d*) سال دله";
  lit "(?i)(\d+[.,]?\d*) سال پیش";
  lit "(?i)(\d+[.,]?\d*) ماه دله";
  lit "(?i)(\d+[.,]?\d*) ماه پیش";
  lit "(?i)(\d+[.,]?\d*) هفته دله";
  lit "(?i)(\d+[.,]?\d*) هفته پیش";
  lit "(?i)(\d+[.,]?\d*) आठवडयापरवी";
  lit "(?i)(\d+[.,]?\d*) आठवडयामधय";
  lit "(?i)(\d+[.,]?\d*) घणटा पहिल";
  lit "(?i)(\d+[.,]?\d*) घणटामा";
  lit "(?i)(\d+[.,]?\d*) तासापरवी";
  lit "(?i)(\d+[.,]?\d*) तासामधय";
  lit "(?i)(\d+[.,]?\d*) दिन पहिल";
  lit "(?i)(\d+[.,]?\d*) दिनमा";
  lit "(?i)(\d+[.,]?\d*) दिवसापरवी";
  lit "(?i)(\d+[.,]?\d*) दिवसामधय";
  lit "(?i)(\d+[.,]?\d*) महिनयापरवी";
  lit "(?i)(\d+[.,]?\d*) महिनयामधय";
  lit "(?i)(\d+[.,]?\d*) महिना पहिल";
  lit "(?i)(\d+[.,]?\d*) महिनामा";
  lit "(?i)(\d+[.,]?\d*) मिनट पहिल";
  lit "(?i)(\d+[.,]?\d*) मिनटमा";
  lit "(?i)(\d+[.,]?\d*) मिनि परवी";
  lit "(?i)(\d+[.,]?\d*) मिनि मधय";
  lit "(?i)(\d+[.,]?\d*) मिनिटापरवी";
  lit "(?i)(\d+[.,]?\d*) मिनिटामधय";
  lit "(?i)(\d+[.,]?\d*) वरष अघि";
  lit "(?i)(\d+[.,]?\d*) वरषमा";
  lit "(?i)(\d+[.,]?\d*) वरषापरवी";
  lit "(?i)(\d+[.,]?\d*) वरषामधय";
  lit "(?i)(\d+[.,]?\d*) स परवी";
  lit "(?i)(\d+[.,]?\d*) स मधय";
  lit "(?i)(\d+[.,]?\d*) सकणड पहिल";
  lit "(?i)(\d+[.,]?\d*) सकणडमा";
  lit "(?i)(\d+[.,]?\d*) सकदापरवी";
  lit "(?i)(\d+[.,]?\d*) सकदामधय";
  lit "(?i)(\d+[.,]?\d*) हपता पहिल";
  lit "(?i)(\d+[.,]?\d*) हपतामा";
  lit "(?i)(\d+[.,]?\d*) ആഴച മമപ";
  lit "(?i)(\d+[.,]?\d*) ആഴചയിൽ";
  lit "(?i)(\d+[.,]?\d*) ദിവസം മമപ";
  lit "(?i)(\d+[.,]?\d*) ദിവസതതിൽ";
  lit "(?i)(\d+[.,]?\d*) മണികകറിൽ";
  lit "(?i)(\d+[.,]?\d*) മണികകർ മമപ";
  lit "(?i)(\d+[.,]?\d*) മാസം മമപ";
  lit "(?i)(\d+[.,]?\d*) മാസതതിൽ";
  lit "(?i)(\d+[.,]?\d*) മിനിററ മമപ";
  lit "(?i)(\d+[.,]?\d*) മിനിററിൽ";
  lit "(?i)(\d+[.,]?\d*) വർഷം മമപ";
  lit "(?i)(\d+[.,]?\d*) വർഷതതിൽ";
  lit "(?i)(\d+[.,]?\d*) സെകകൻഡ മമപ";
  lit "(?i)(\d+[.,]?\d*) സെകകൻഡിൽ";
  lit "(?i)(\d+[.,]?\d*) စကကနအတငး";
  lit "(?i)(\d+[.,]?\d*) နစအတငး";
  lit "(?i)(\d+[.,]?\d*) နာရအတငး";
  lit "(?i)(\d+[.,]?\d*) ပတအတငး";
  lit "(?i)(\d+[.,]?\d*) မနစအတငး";
  lit "(?i)(\d+[.,]?\d*) ရကအတငး";
  lit "(?i)(\d+[.,]?\d*) လအတငး";
  lit "(?i)^(\d+[.,]?\d* seconden geleden|\d+[.,]?\d* maanden geleden|\d+[.,]?\d* minuten geleden|\d+[.,]?\d* seconde geleden|\d+[.,]?\d* minuut geleden|\d+[.,]?\d* dagen geleden|\d+[.,]?\d* maand geleden|\d+[.,]?\d* weken geleden|over \d+[.,]?\d* seconden|\d+[.,]?\d* jaar geleden|\d+[.,]?\d* week geleden|over \d+[.,]?\d* maanden|over \d+[.,]?\d* minuten|over \d+[.,]?\d* seconde|\d+[.,]?\d* dag geleden|\d+[.,]?\d* dgn geleden|\d+[.,]?\d* min geleden|\d+[.,]?\d* sec geleden|\d+[.,]?\d* uur geleden|over \d+[.,]?\d* minuut|over \d+[.,]?\d* dagen|over \d+[.,]?\d* maand|over \d+[.,]?\d* weken|over \d+[.,]?\d* jaar|over \d+[.,]?\d* week|over \d+[.,]?\d* dag|over \d+[.,]?\d* dgn|over \d+[.,]?\d* min|over \d+[.,]?\d* sec|over \d+[.,]?\d* uur)$";
  lit "(?i)^(\d+[.,]?\d* sena ilu|\d+[.,]?\d* snin ilu)$";
  lit "(?i)^(\d+[.,]?\d* сахаты размӕ|\d+[.,]?\d* сахаты фӕстӕ|\d+[.,]?\d* бон раздӕр|\d+[.,]?\d* боны размӕ|\d+[.,]?\d* боны фӕстӕ)$";
  lit "(?i)^(\d+[.,]?\d* секундын дараа|\d+[.,]?\d* минутын дараа|\d+[.,]?\d* секундын өмнө|\d+[.,]?\d* 7х-иин дараа|\d+[.,]?\d* жилиин дараа|\d+[.,]?\d* минутын өмнө|\d+[.,]?\d* цагиин дараа|\d+[.,]?\d* өдриин дараа|\d+[.,]?\d* 7х-иин өмнө|\d+[.,]?\d* жилиин өмнө|\d+[.,]?\d* сарын дараа|\d+[.,]?\d* цагиин өмнө|\d+[.,]?\d* өдриин өмнө|\d+[.,]?\d* сарын өмнө|\d+[.,]?\d* мин дараа|\d+[.,]?\d* сек дараа|\d+[.,]?\d* мин өмнө|\d+[.,]?\d* сек өмнө|\d+[.,]?\d* ц дараа|\d+[.,]?\d* ц өмнө|\d+[.,]?\d* өдөрт)$";
  lit "(?i)^(\d+[.,]?\d* ثانیه دله|\d+[.,]?\d* ثانیه پیش|\d+[.,]?\d* دقیقه دله|\d+[.,]?\d* ساعت دله|\d+[.,]?\d* ساعت پیش|\d+[.,]?\d* هفته دله|\d+[.,]?\d* هفته پیش|\d+[.,]?\d* دقه دله|\d+[.,]?\d* دقه پیش|\d+[.,]?\d* روز دله|\d+[.,]?\d* روز پیش|\d+[.,]?\d* سال دله|\d+[.,]?\d* سال پیش|\d+[.,]?\d* ماه دله|\d+[.,]?\d* ماه پیش)$";
  lit "(?i)^(\d+[.,]?\d* आठवडयापरवी|\d+[.,]?\d* महिनयापरवी|\d+[.,]?\d* मिनिटापरवी|\d+[.,]?\d* आठवडयामधय|\d+[.,]?\d* दिवसापरवी|\d+[.,]?\d* महिनयामधय|\d+[.,]?\d* मिनि परवी|\d+[.,]?\d* मिनिटामधय|\d+[.,]?\d* तासापरवी|\d+[.,]?\d* दिवसामधय|\d+[.,]?\d* मिनि मधय|\d+[.,]?\d* वरषापरवी|\d+[.,]?\d* सकदापरवी|\d+[.,]?\d* तासामधय|\d+[.,]?\d* वरषामधय|\d+[.,]?\d* सकदामधय|\d+[.,]?\d* स परवी|\d+[.,]?\d* स मधय)$";
  lit "(?i)^(\d+[.,]?\d* महिना पहिल|\d+[.,]?\d* घणटा पहिल|\d+[.,]?\d* मिनट पहिल|\d+[.,]?\d* सकणड पहिल|\d+[.,]?\d* हपता पहिल|\d+[.,]?\d* दिन पहिल|\d+[.,]?\d* महिनामा|\d+[.,]?\d* वरष अघि|\d+[.,]?\d* घणटामा|\d+[.,]?\d* मिनटमा|\d+[.,]?\d* सकणडमा|\d+[.,]?\d* हपतामा|\d+[.,]?\d* दिनमा|\d+[.,]?\d* वरषमा)$";
  lit "(?i)^(\d+[.,]?\d* മണികകർ മമപ|\d+[.,]?\d* മിനിററ മമപ|\d+[.,]?\d* സെകകൻഡ മമപ|\d+[.,]?\d* ദിവസം മമപ|\d+[.,]?\d* ദിവസതതിൽ|\d+[.,]?\d* മണികകറിൽ|\d+[.,]?\d* മാസം മമപ|\d+[.,]?\d* മിനിററിൽ|\d+[.,]?\d* വർഷം മമപ|\d+[.,]?\d* സെകകൻഡിൽ|\d+[.,]?\d* ആഴച മമപ|\d+[.,]?\d* മാസതതിൽ|\d+[.,]?\d* വർഷതതിൽ|\d+[.,]?\d* ആഴചയിൽ)$";
  lit "(?i)^(dalam \d+[.,]?\d* minggu|\d+[.,]?\d* minggu lalu|dalam \d+[.,]?\d* bulan|dalam \d+[.,]?\d* minit|\d+[.,]?\d* bulan lalu|\d+[.,]?\d* minit lalu|\d+[.,]?\d* tahun lalu|dalam \d+[.,]?\d* hari|dalam \d+[.,]?\d* saat|\d+[.,]?\d* hari lalu|\d+[.,]?\d* saat lalu|dalam \d+[.,]?\d* jam|dalam \d+[.,]?\d* thn|\d+[.,]?\d* bln lalu|\d+[.,]?\d* jam lalu|\d+[.,]?\d* mgu lalu|\d+[.,]?\d* min lalu|\d+[.,]?\d* thn lalu|dlm \d+[.,]?\d* hari|dlm \d+[.,]?\d* saat|dlm \d+[.,]?\d* bln|dlm \d+[.,]?\d* jam|dlm \d+[.,]?\d* mgu|dlm \d+[.,]?\d* min)$";
  lit "(?i)^(for \d+[.,]?\d* minutter siden|for \d+[.,]?\d* sekunder siden|for \d+[.,]?\d* maneder siden|for \d+[.,]?\d* minutt siden|for \d+[.,]?\d* sekund siden|for \d+[.,]?\d* dager siden|for \d+[.,]?\d* maned siden|for \d+[.,]?\d* timer siden|for \d+[.,]?\d* døgn siden|for \d+[.,]?\d* time siden|for \d+[.,]?\d* uker siden|for \d+[.,]?\d* min siden|for \d+[.,]?\d* sek siden|for \d+[.,]?\d* uke siden|for \d+[.,]?\d* ar siden|for \d+[.,]?\d* md siden|for \d+[.,]?\d* d siden|for \d+[.,]?\d* t siden|for \d+[.,]?\d* u siden|om \d+[.,]?\d* minutter|om \d+[.,]?\d* sekunder|om \d+[.,]?\d* maneder|om \d+[.,]?\d* minutt|om \d+[.,]?\d* sekund|om \d+[.,]?\d* maned|om \d+[.,]?\d* timer|om \d+[.,]?\d* døgn|om \d+[.,]?\d* time|om \d+[.,]?\d* uker|om \d+[.,]?\d* min|om \d+[.,]?\d* sek|om \d+[.,]?\d* uke|om \d+[.,]?\d* ar|om \d+[.,]?\d* md|om \d+[.,]?\d* d|om \d+[.,]?\d* t|om \d+[.,]?\d* u|–\d+[.,]?\d* ar)$";
  lit "(?i)^(for \d+[.,]?\d* minutter siden|for \d+[.,]?\d* sekunder siden|for \d+[.,]?\d* maneder siden|for \d+[.,]?\d* minutt siden|for \d+[.,]?\d* sekund siden|for \d+[.,]?\d* maned siden|for \d+[.,]?\d* timer siden|for \d+[.,]?\d* døgn siden|for \d+[.,]?\d* time siden|for \d+[.,]?\d* uker siden|for \d+[.,]?\d* uke siden|for \d+[.,]?\d* ar siden|om \d+[.,]?\d* minutter|om \d+[.,]?\d* sekunder|om \d+[.,]?\d* maneder|om \d+[.,]?\d* minutt|om \d+[.,]?\d* sekund|om \d+[.,]?\d* maned|om \d+[.,]?\d* timer|om \d+[.,]?\d* døgn|om \d+[.,]?\d* time|om \d+[.,]?\d* uker|om \d+[.,]?\d* uke|om \d+[.,]?\d* ar)$";
  lit "(?i)^(пред \d+[.,]?\d* седмица|пред \d+[.,]?\d* седмици|пред \d+[.,]?\d* секунда|пред \d+[.,]?\d* секунди|пред \d+[.,]?\d* година|пред \d+[.,]?\d* години|пред \d+[.,]?\d* месеци|пред \d+[.,]?\d* минута|пред \d+[.,]?\d* минути|за \d+[.,]?\d* седмица|за \d+[.,]?\d* седмици|за \d+[.,]?\d* секунда|за \d+[.,]?\d* секунди|пред \d+[.,]?\d* месец|за \d+[.,]?\d* година|за \d+[.,]?\d* години|за \d+[.,]?\d* месеци|за \d+[.,]?\d* минута|за \d+[.,]?\d* минути|пред \d+[.,]?\d* дена|пред \d+[.,]?\d* часа|за \d+[.,]?\d* месец|пред \d+[.,]?\d* ден|пред \d+[.,]?\d* час|за \d+[.,]?\d* дена|за \d+[.,]?\d* часа|за \d+[.,]?\d* ден|за \d+[.,]?\d* час)$";
  lit "(?i)^(ပြးခသည \d+[.,]?\d* စကကန|ပြးခသည \d+[.,]?\d* နာရ|ပြးခသည \d+[.,]?\d* မနစ|ပြးခသည \d+[.,]?\d* နစ|ပြးခသည \d+[.,]?\d* ပတ|ပြးခသည \d+[.,]?\d* ရက|\d+[.,]?\d* စကကနအတငး|ပြးခသည \d+[.,]?\d* လ|\d+[.,]?\d* နာရအတငး|\d+[.,]?\d* မနစအတငး|\d+[.,]?\d* နစအတငး|\d+[.,]?\d* ပတအတငး|\d+[.,]?\d* ရကအတငး|\d+[.,]?\d* လအတငး)$";
  lit "(?i)dalam (\d+[.,]?\d*) bulan";
  lit "(?i)dalam (\d+[.,]?\d*) hari";
  lit "(?i)dalam (\d+[.,]?\d*) jam";
  lit "(?i)dalam (\d+[.,]?\d*) minggu";
  lit "(?i)dalam (\d+[.,]?\d*) minit";
  lit "(?i)dalam (\d+[.,]?\d*) saat";
  lit "(?i)dalam (\d+[.,]?\d*) thn";
  lit "(?i)dlm (\d+[.,]?\d*) bln";
  lit "(?i)dlm (\d+[.,]?\d*) hari";
  lit "(?i)dlm (\d+[.,]?\d*) jam";
  lit "(?i)dlm (\d+[.,]?\d*) mgu";
  lit "(?i)dlm (\d+[.,]?\d*) min";
  lit "(?i)dlm (\d+[.,]?\d*) saat";
  lit "(?i)for (\d+[.,]?\d*) ar siden";
  lit "(?i)for (\d+[.,]?\d*) d siden";
  lit "(?i)for (\d+[.,]?\d*) dager siden";
  lit "(?i)for (\d+[.,]?\d*) døgn siden";
  lit "(?i)for (\d+[.,]?\d*) maned siden";
  lit "(?i)for (\d+[.,]?\d*) maneder siden";
  lit "(?i)for (\d+[.,]?\d*) md siden";
  lit "(?i)for (\d+[.,]?\d*) min siden";
  lit "(?i)for (\d+[.,]?\d*) minutt siden";
  lit "(?i)for (\d+[.,]?\d*) minutter siden";
  lit "(?i)for (\d+[.,]?\d*) sek siden";
  lit "(?i)for (\d+[.,]?\d*) sekund siden";
  lit "(?i)for (\d+[.,]?\d*) sekunder siden";
  lit "(?i)for (\d+[.,]?\d*) t siden";
  lit "(?i)for (\d+[.,]?\d*) time siden";
  lit "(?i)for (\d+[.,]?\d*) timer siden";
  lit "(?i)for (\d+[.,]?\d*) u siden";
  lit "(?i)for (\d+[.,]?\d*) uke siden";
  lit "(?i)for (\d+[.,]?\d*) uker siden";
  lit "(?i)om (\d+[.,]?\d*) ar";
  lit "(?i)om (\d+[.,]?\d*) d";
  lit "(?i)om (\d+[.,]?\d*) døgn";
  lit "(?i)om (\d+[.,]?\d*) maned";
  lit "(?i)om (\d+[.,]?\d*) maneder";
  lit "(?i)om (\d+[.,]?\d*) md";
  lit "(?i)om (\d+[.,]?\d*) min";
  lit "(?i)om (\d+[.,]?\d*) minutt";
  lit "(?i)om (\d+[.,]?\d*) minutter";
  lit "(?i)om (\d+[.,]?\d*) sek";
  lit "(?i)om (\d+[.,]?\d*) sekund";
  lit "(?i)om (\d+[.,]?\d*) sekunder";
  lit "(?i)om (\d+[.,]?\d*) t";
  lit "(?i)om (\d+[.,]?\d*) time";
  lit "(?i)om (\d+[.,]?\d*) timer";
  lit "(?i)om (\d+[.,]?\d*) u";
  lit "(?i)om (\d+[.,]?\d*) uke";
  lit "(?i)om (\d+[.,]?\d*) uker";
  lit "(?i)over (\d+[.,]?\d*) dag";
  lit "(?i)over (\d+[.,]?\d*) dagen";
  lit "(?i)over (\d+[.,]?\d*) dgn";
  lit "(?i)over (\d+[.,]?\d*) jaar";
  lit "(?i)over (\d+[.,]?\d*) maand";
  lit "(?i)over (\d+[.,]?\d*) maanden";
  lit "(?i)over (\d+[.,]?\d*) min";
  lit "(?i)over (\d+[.,]?\d*) minuten";
  lit "(?i)over (\d+[.,]?\d*) minuut";
  lit "(?i)over (\d+[.,]?\d*) sec";
  lit "(?i)over (\d+[.,]?\d*) seconde";
  lit "(?i)over (\d+[.,]?\d*) seconden";
  lit "(?i)over (\d+[.,]?\d*) uur";
  lit "(?i)over (\d+[.,]?\d*) week";
  lit "(?i)over (\d+[.,]?\d*) weken";
  lit "(?i)за (\d+[.,]?\d*) година";
  lit "(?i)за (\d+[.,]?\d*) години";
  lit "(?i)за (\d+[.,]?\d*) ден";
  lit "(?i)за (\d+[.,]?\d*) дена";
  lit "(?i)за (\d+[.,]?\d*) месец";
  lit "(?i)за (\d+[.,]?\d*) месеци";
  lit "(?i)за (\d+[.,]?\d*) минута";
  lit "(?i)за (\d+[.,]?\d*) минути";
  lit "(?i)за (\d+[.,]?\d*) седмица";
  lit "(?i)за (\d+[.,]?\d*) седмици";
  lit "(?i)за (\d+[.,]?\d*) секунда";
  lit "(?i)за (\d+[.,]?\d*) секунди";
  lit "(?i)за (\d+[.,]?\d*) час";
  lit "(?i)за (\d+[.,]?\d*) часа";
  lit "(?i)пред (\d+[.,]?\d*) година";
  lit "(?i)пред (\d+[.,]?\d*) години";
  lit "(?i)пред (\d+[.,]?\d*) ден";
  lit "(?i)пред (\d+[.,]?\d*) дена";
  lit "(?i)пред (\d+[.,]?\d*) месец";
  lit "(?i)пред (\d+[.,]?\d*) месеци";
  lit "(?i)пред (\d+[.,]?\d*) минута";
  lit "(?i)пред (\d+[.,]?\d*) минути";
  lit "(?i)пред (\d+[.,]?\d*) седмица";
  lit "(?i)пред (\d+[.,]?\d*) седмици";
  lit "(?i)пред (\d+[.,]?\d*) секунда";
  lit "(?i)пред (\d+[.,]?\d*) секунди";
  lit "(?i)пред (\d+[.,]?\d*) час";
  lit "(?i)пред (\d+[.,]?\d*) часа";
  lit "(?i)ပြးခသည (\d+[.,]?\d*) စကကန";
  lit "(?i)ပြးခသည (\d+[.,]?\d*) နစ";
  lit "(?i)ပြးခသည (\d+[.,]?\d*) နာရ";
  lit "(?i)ပြးခသည (\d+[.,]?\d*) ပတ";
  lit "(?i)ပြးခသည (\d+[.,]?\d*) မနစ";
  lit "(?i)ပြးခသည (\d+[.,]?\d*) ရက";
  lit "(?i)ပြးခသည (\d+[.,]?\d*) လ";
  lit "(?i)–(\d+[.,]?\d*) ar"] = true.
Proof. vm_compute. reflexivity. Qed.

Definition table_08 : list (str * locale) :=
  [(lit "mk", loc_mk);
   (lit "ml", loc_ml);
   (lit "mn", loc_mn);
   (lit "mr", loc_mr);
   (lit "ms", loc_ms);
   (lit "ms-BN", loc_ms_BN);
   (lit "ms-SG", loc_ms_SG);
   (lit "mt", loc_mt);
   (lit "mua", loc_mua);
   (lit "my", loc_my);
   (lit "mzn", loc_mzn);
   (lit "naq", loc_naq);
   (lit "nb", loc_nb);
   (lit "nb-SJ", loc_nb_SJ);
   (lit "nd", loc_nd);
   (lit "ne", loc_ne);
   (lit "ne-IN", loc_ne_IN);
   (lit "nl", loc_nl);
   (lit "nl-AW", loc_nl_AW);
   (lit "nl-BE", loc_nl_BE);
   (lit "nl-BQ", loc_nl_BQ);
   (lit "nl-CW", loc_nl_CW);
   (lit "nl-SR", loc_nl_SR);
   (lit "nl-SX", loc_nl_SX);
   (lit "nmg", loc_nmg);
   (lit "nn", loc_nn);
   (lit "nnh", loc_nnh);
   (lit "nus", loc_nus);
   (lit "nyn", loc_nyn);
   (lit "om", loc_om);
   (lit "om-KE", loc_om_KE);
   (lit "or", loc_or);
   (lit "os", loc_os);
   (lit "os-RU", loc_os_RU);
   (lit "pa-Arab", loc_pa_Arab)].

(** each region with its language *)
Definition regions_08 : list (str * str) :=
  [(lit "ms-BN", lit "ms");
   (lit "ms-SG", lit "ms");
   (lit "nb-SJ", lit "nb");
   (lit "ne-IN", lit "ne");
   (lit "nl-AW", lit "nl");
   (lit "nl-BE", lit "nl");
   (lit "nl-BQ", lit "nl");
   (lit "nl-CW", lit "nl");
   (lit "nl-SR", lit "nl");
   (lit "nl-SX", lit "nl");
   (lit "om-KE", lit "om");
   (lit "os-RU", lit "os")].
