(** Generated by tools/gen_all_locales.py from /repo/internal/data. Do not edit. *)
From Verif Require Import GoBase SMap Regex Language LocaleData.

(** zh-hant.go:14-111 *)
Definition loc_zh_Hant : locale := Eval vm_compute in
  {| ld_name := lit "zh-Hant"; ld_order := lit "YMD"; ld_nospacing := true; ld_splitter := 4;
    ld_charset := runes (lit "cgtuz一三上下二五今個六分午去四在天小年日明星昨時月期本現秒這週鐘");
    ld_abbr := [];
    ld_simpl := [];
    ld_trans := [(lit "10月", [lit "october"]);
    (lit "11月", [lit "november"]);
    (lit "12月", [lit "december"]);
    (lit "gmt", [lit "gmt"]);
    (lit "utc", [lit "utc"]);
    (lit "星期一", [lit "monday"]);
    (lit "星期三", [lit "wednesday"]);
    (lit "星期二", [lit "tuesday"]);
    (lit "星期五", [lit "friday"]);
    (lit "星期六", [lit "saturday"]);
    (lit "星期四", [lit "thursday"]);
    (lit "星期日", [lit "sunday"]);
    (lit "1月", [lit "january"]);
    (lit "2月", [lit "february"]);
    (lit "3月", [lit "march"]);
    (lit "4月", [lit "april"]);
    (lit "5月", [lit "may"]);
    (lit "6月", [lit "june"]);
    (lit "7月", [lit "july"]);
    (lit "8月", [lit "august"]);
    (lit "9月", [lit "september"]);
    (lit "am", [lit "am"]);
    (lit "pm", [lit "pm"]);
    (lit "上午", [lit "am"]);
    (lit "下午", [lit "pm"]);
    (lit "分鐘", [lit "minute"]);
    (lit "小時", [lit "hour"]);
    (lit "週一", [lit "monday"]);
    (lit "週三", [lit "wednesday"]);
    (lit "週二", [lit "tuesday"]);
    (lit "週五", [lit "friday"]);
    (lit "週六", [lit "saturday"]);
    (lit "週四", [lit "thursday"]);
    (lit "週日", [lit "sunday"]);
    (lit " ", [lit " "]);
    (lit "'", [lit ""]);
    (lit "+", [lit "+"]);
    (lit ",", [lit ""]);
    (lit "-", [lit "-"]);
    (lit ".", [lit "."]);
    (lit "/", [lit "/"]);
    (lit ":", [lit ":"]);
    (lit ";", [lit ""]);
    (lit "@", [lit ""]);
    (lit "[", [lit ""]);
    (lit "]", [lit ""]);
    (lit "z", [lit "z"]);
    (lit "|", [lit ""]);
    (lit "年", [lit "year"]);
    (lit "日", [lit "day"]);
    (lit "月", [lit "month"]);
    (lit "秒", [lit "second"]);
    (lit "週", [lit "week"])];
    ld_reltype := [(lit "這一分鐘", lit "0 minute ago");
    (lit "這一小時", lit "0 hour ago");
    (lit "上個月", lit "1 month ago");
    (lit "下個月", lit "in 1 month");
    (lit "上週", lit "1 week ago");
    (lit "下週", lit "in 1 week");
    (lit "今天", lit "0 day ago");
    (lit "今年", lit "0 year ago");
    (lit "去年", lit "1 year ago");
    (lit "明天", lit "in 1 day");
    (lit "明年", lit "in 1 year");
    (lit "昨天", lit "1 day ago");
    (lit "本月", lit "0 month ago");
    (lit "本週", lit "0 week ago");
    (lit "現在", lit "0 second ago")];
    ld_relrx := [(rx "(?i)(\d+[.,]?\d*) 個月前", lit "$1 month ago");
    (rx "(?i)(\d+[.,]?\d*) 個月後", lit "in $1 month");
    (rx "(?i)(\d+[.,]?\d*) 分鐘前", lit "$1 minute ago");
    (rx "(?i)(\d+[.,]?\d*) 分鐘後", lit "in $1 minute");
    (rx "(?i)(\d+[.,]?\d*) 小時前", lit "$1 hour ago");
    (rx "(?i)(\d+[.,]?\d*) 小時後", lit "in $1 hour");
    (rx "(?i)(\d+[.,]?\d*) 天前", lit "$1 day ago");
    (rx "(?i)(\d+[.,]?\d*) 天後", lit "in $1 day");
    (rx "(?i)(\d+[.,]?\d*) 年前", lit "$1 year ago");
    (rx "(?i)(\d+[.,]?\d*) 年後", lit "in $1 year");
    (rx "(?i)(\d+[.,]?\d*) 秒前", lit "$1 second ago");
    (rx "(?i)(\d+[.,]?\d*) 秒後", lit "in $1 second");
    (rx "(?i)(\d+[.,]?\d*) 週前", lit "$1 week ago");
    (rx "(?i)(\d+[.,]?\d*) 週後", lit "in $1 week")];
    ld_rx := Some (rx "(?i)(\d+[.,]?\d* 個月前|\d+[.,]?\d* 個月後|\d+[.,]?\d* 分鐘前|\d+[.,]?\d* 分鐘後|\d+[.,]?\d* 小時前|\d+[.,]?\d* 小時後|\d+[.,]?\d* 天前|\d+[.,]?\d* 天後|\d+[.,]?\d* 年前|\d+[.,]?\d* 年後|\d+[.,]?\d* 秒前|\d+[.,]?\d* 秒後|\d+[.,]?\d* 週前|\d+[.,]?\d* 週後)");
    ld_rx_exact := Some (rx "(?i)^(\d+[.,]?\d* 個月前|\d+[.,]?\d* 個月後|\d+[.,]?\d* 分鐘前|\d+[.,]?\d* 分鐘後|\d+[.,]?\d* 小時前|\d+[.,]?\d* 小時後|\d+[.,]?\d* 天前|\d+[.,]?\d* 天後|\d+[.,]?\d* 年前|\d+[.,]?\d* 年後|\d+[.,]?\d* 秒前|\d+[.,]?\d* 秒後|\d+[.,]?\d* 週前|\d+[.,]?\d* 週後)$");
    ld_known := [lit "這一分鐘";
    lit "這一小時";
    lit "10月";
    lit "11月";
    lit "12月";
    lit "gmt";
    lit "utc";
    lit "上個月";
    lit "下個月";
    lit "星期一";
    lit "星期三";
    lit "星期二";
    lit "星期五";
    lit "星期六";
    lit "星期四";
    lit "星期日";
    lit "1月";
    lit "2月";
    lit "3月";
    lit "4月";
    lit "5月";
    lit "6月";
    lit "7月";
    lit "8月";
    lit "9月";
    lit "am";
    lit "pm";
    lit "上午";
    lit "上週";
    lit "下午";
    lit "下週";
    lit "今天";
    lit "今年";
    lit "分鐘";
    lit "去年";
    lit "小時";
    lit "明天";
    lit "明年";
    lit "昨天";
    lit "本月";
    lit "本週";
    lit "現在";
    lit "週一";
    lit "週三";
    lit "週二";
    lit "週五";
    lit "週六";
    lit "週四";
    lit "週日";
    lit " ";
    lit "'";
    lit "+";
    lit ",";
    lit "-";
    lit ".";
    lit "/";
    lit ":";
    lit ";";
    lit "@";
    lit "[";
    lit "]";
    lit "z";
    lit "|";
    lit "年";
    lit "日";
    lit "月";
    lit "秒";
    lit "週"] |}.

(** zh-hant.go:113-159 *)
Definition own_zh_Hant_HK : locale := Eval vm_compute in
  {| ld_name := lit "zh-Hant-HK"; ld_order := lit "DMY"; ld_nospacing := true; ld_splitter := 0;
    ld_charset := runes (lit "");
    ld_abbr := [];
    ld_simpl := [];
    ld_trans := [(lit "星期", [lit "week"]);
    (lit "分", [lit "minute"]);
    (lit "時", [lit "hour"])];
    ld_reltype := [(lit "這個小時", lit "0 hour ago");
    (lit "上星期", lit "1 week ago");
    (lit "下星期", lit "in 1 week");
    (lit "本星期", lit "0 week ago");
    (lit "這分鐘", lit "0 minute ago");
    (lit "上年", lit "1 year ago");
    (lit "上月", lit "1 month ago");
    (lit "下年", lit "in 1 year");
    (lit "下月", lit "in 1 month");
    (lit "今日", lit "0 day ago");
    (lit "明日", lit "in 1 day");
    (lit "昨日", lit "1 day ago")];
    ld_relrx := [(rx "(?i)(\d+[.,]?\d*) 星期前", lit "$1 week ago");
    (rx "(?i)(\d+[.,]?\d*) 星期後", lit "in $1 week");
    (rx "(?i)(\d+[.,]?\d*) 日前", lit "$1 day ago");
    (rx "(?i)(\d+[.,]?\d*) 日後", lit "in $1 day");
    (rx "(?i)(\d+[.,]?\d*)個月前", lit "$1 month ago");
    (rx "(?i)(\d+[.,]?\d*)個月後", lit "in $1 month");
    (rx "(?i)(\d+[.,]?\d*)小時前", lit "$1 hour ago");
    (rx "(?i)(\d+[.,]?\d*)小時後", lit "in $1 hour");
    (rx "(?i)(\d+[.,]?\d*)分前", lit "$1 minute ago");
    (rx "(?i)(\d+[.,]?\d*)分後", lit "in $1 minute");
    (rx "(?i)(\d+[.,]?\d*)年前", lit "$1 year ago");
    (rx "(?i)(\d+[.,]?\d*)年後", lit "in $1 year");
    (rx "(?i)(\d+[.,]?\d*)日前", lit "$1 day ago");
    (rx "(?i)(\d+[.,]?\d*)日後", lit "in $1 day");
    (rx "(?i)(\d+[.,]?\d*)秒前", lit "$1 second ago");
    (rx "(?i)(\d+[.,]?\d*)秒後", lit "in $1 second");
    (rx "(?i)(\d+[.,]?\d*)週前", lit "$1 week ago");
    (rx "(?i)(\d+[.,]?\d*)週後", lit "in $1 week")];
    ld_rx := Some (rx "(?i)(\d+[.,]?\d* 個月前|\d+[.,]?\d* 個月後|\d+[.,]?\d* 分鐘前|\d+[.,]?\d* 分鐘後|\d+[.,]?\d* 小時前|\d+[.,]?\d* 小時後|\d+[.,]?\d* 星期前|\d+[.,]?\d* 星期後|\d+[.,]?\d* 天前|\d+[.,]?\d* 天後|\d+[.,]?\d* 年前|\d+[.,]?\d* 年後|\d+[.,]?\d* 日前|\d+[.,]?\d* 日後|\d+[.,]?\d* 秒前|\d+[.,]?\d* 秒後|\d+[.,]?\d* 週前|\d+[.,]?\d* 週後|\d+[.,]?\d*個月前|\d+[.,]?\d*個月後|\d+[.,]?\d*小時前|\d+[.,]?\d*小時後|\d+[.,]?\d*分前|\d+[.,]?\d*分後|\d+[.,]?\d*年前|\d+[.,]?\d*年後|\d+[.,]?\d*日前|\d+[.,]?\d*日後|\d+[.,]?\d*秒前|\d+[.,]?\d*秒後|\d+[.,]?\d*週前|\d+[.,]?\d*週後)");
    ld_rx_exact := Some (rx "(?i)^(\d+[.,]?\d* 個月前|\d+[.,]?\d* 個月後|\d+[.,]?\d* 分鐘前|\d+[.,]?\d* 分鐘後|\d+[.,]?\d* 小時前|\d+[.,]?\d* 小時後|\d+[.,]?\d* 星期前|\d+[.,]?\d* 星期後|\d+[.,]?\d* 天前|\d+[.,]?\d* 天後|\d+[.,]?\d* 年前|\d+[.,]?\d* 年後|\d+[.,]?\d* 日前|\d+[.,]?\d* 日後|\d+[.,]?\d* 秒前|\d+[.,]?\d* 秒後|\d+[.,]?\d* 週前|\d+[.,]?\d* 週後|\d+[.,]?\d*個月前|\d+[.,]?\d*個月後|\d+[.,]?\d*小時前|\d+[.,]?\d*小時後|\d+[.,]?\d*分前|\d+[.,]?\d*分後|\d+[.,]?\d*年前|\d+[.,]?\d*年後|\d+[.,]?\d*日前|\d+[.,]?\d*日後|\d+[.,]?\d*秒前|\d+[.,]?\d*秒後|\d+[.,]?\d*週前|\d+[.,]?\d*週後)$");
    ld_known := [lit "這一分鐘";
    lit "這一小時";
    lit "這個小時";
    lit "10月";
    lit "11月";
    lit "12月";
    lit "gmt";
    lit "utc";
    lit "上個月";
    lit "上星期";
    lit "下個月";
    lit "下星期";
    lit "星期一";
    lit "星期三";
    lit "星期二";
    lit "星期五";
    lit "星期六";
    lit "星期四";
    lit "星期日";
    lit "本星期";
    lit "這分鐘";
    lit "1月";
    lit "2月";
    lit "3月";
    lit "4月";
    lit "5月";
    lit "6月";
    lit "7月";
    lit "8月";
    lit "9月";
    lit "am";
    lit "pm";
    lit "上午";
    lit "上年";
    lit "上月";
    lit "上週";
    lit "下午";
    lit "下年";
    lit "下月";
    lit "下週";
    lit "今天";
    lit "今年";
    lit "今日";
    lit "分鐘";
    lit "去年";
    lit "小時";
    lit "明天";
    lit "明年";
    lit "明日";
    lit "星期";
    lit "昨天";
    lit "昨日";
    lit "本月";
    lit "本週";
    lit "現在";
    lit "週一";
    lit "週三";
    lit "週二";
    lit "週五";
    lit "週六";
    lit "週四";
    lit "週日";
    lit " ";
    lit "'";
    lit "+";
    lit ",";
    lit "-";
    lit ".";
    lit "/";
    lit ":";
    lit ";";
    lit "@";
    lit "[";
    lit "]";
    lit "z";
    lit "|";
    lit "分";
    lit "年";
    lit "日";
    lit "時";
    lit "月";
    lit "秒";
    lit "週"] |}.
Definition loc_zh_Hant_HK : locale := merge loc_zh_Hant own_zh_Hant_HK.

(** zh-hant.go:161-207 *)
Definition own_zh_Hant_MO : locale := Eval vm_compute in
  {| ld_name := lit "zh-Hant-MO"; ld_order := lit "DMY"; ld_nospacing := true; ld_splitter := 0;
    ld_charset := runes (lit "");
    ld_abbr := [];
    ld_simpl := [];
    ld_trans := [(lit "星期", [lit "week"]);
    (lit "分", [lit "minute"]);
    (lit "時", [lit "hour"])];
    ld_reltype := [(lit "這個小時", lit "0 hour ago");
    (lit "上星期", lit "1 week ago");
    (lit "下星期", lit "in 1 week");
    (lit "本星期", lit "0 week ago");
    (lit "這分鐘", lit "0 minute ago");
    (lit "上年", lit "1 year ago");
    (lit "上月", lit "1 month ago");
    (lit "下年", lit "in 1 year");
    (lit "下月", lit "in 1 month");
    (lit "今日", lit "0 day ago");
    (lit "明日", lit "in 1 day");
    (lit "昨日", lit "1 day ago")];
    ld_relrx := [(rx "(?i)(\d+[.,]?\d*) 星期前", lit "$1 week ago");
    (rx "(?i)(\d+[.,]?\d*) 星期後", lit "in $1 week");
    (rx "(?i)(\d+[.,]?\d*) 日前", lit "$1 day ago");
    (rx "(?i)(\d+[.,]?\d*) 日後", lit "in $1 day");
    (rx "(?i)(\d+[.,]?\d*)個月前", lit "$1 month ago");
    (rx "(?i)(\d+[.,]?\d*)個月後", lit "in $1 month");
    (rx "(?i)(\d+[.,]?\d*)小時前", lit "$1 hour ago");
    (rx "(?i)(\d+[.,]?\d*)小時後", lit "in $1 hour");
    (rx "(?i)(\d+[.,]?\d*)分前", lit "$1 minute ago");
    (rx "(?i)(\d+[.,]?\d*)分後", lit "in $1 minute");
    (rx "(?i)(\d+[.,]?\d*)年前", lit "$1 year ago");
    (rx "(?i)(\d+[.,]?\d*)年後", lit "in $1 year");
    (rx "(?i)(\d+[.,]?\d*)日前", lit "$1 day ago");
    (rx "(?i)(\d+[.,]?\d*)日後", lit "in $1 day");
    (rx "(?i)(\d+[.,]?\d*)秒前", lit "$1 second ago");
    (rx "(?i)(\d+[.,]?\d*)秒後", lit "in $1 second");
    (rx "(?i)(\d+[.,]?\d*)週前", lit "$1 week ago");
    (rx "(?i)(\d+[.,]?\d*)週後", lit "in $1 week")];
    ld_rx := Some (rx "(?i)(\d+[.,]?\d* 個月前|\d+[.,]?\d* 個月後|\d+[.,]?\d* 分鐘前|\d+[.,]?\d* 分鐘後|\d+[.,]?\d* 小時前|\d+[.,]?\d* 小時後|\d+[.,]?\d* 星期前|\d+[.,]?\d* 星期後|\d+[.,]?\d* 天前|\d+[.,]?\d* 天後|\d+[.,]?\d* 年前|\d+[.,]?\d* 年後|\d+[.,]?\d* 日前|\d+[.,]?\d* 日後|\d+[.,]?\d* 秒前|\d+[.,]?\d* 秒後|\d+[.,]?\d* 週前|\d+[.,]?\d* 週後|\d+[.,]?\d*個月前|\d+[.,]?\d*個月後|\d+[.,]?\d*小時前|\d+[.,]?\d*小時後|\d+[.,]?\d*分前|\d+[.,]?\d*分後|\d+[.,]?\d*年前|\d+[.,]?\d*年後|\d+[.,]?\d*日前|\d+[.,]?\d*日後|\d+[.,]?\d*秒前|\d+[.,]?\d*秒後|\d+[.,]?\d*週前|\d+[.,]?\d*週後)");
    ld_rx_exact := Some (rx "(?i)^(\d+[.,]?\d* 個月前|\d+[.,]?\d* 個月後|\d+[.,]?\d* 分鐘前|\d+[.,]?\d* 分鐘後|\d+[.,]?\d* 小時前|\d+[.,]?\d* 小時後|\d+[.,]?\d* 星期前|\d+[.,]?\d* 星期後|\d+[.,]?\d* 天前|\d+[.,]?\d* 天後|\d+[.,]?\d* 年前|\d+[.,]?\d* 年後|\d+[.,]?\d* 日前|\d+[.,]?\d* 日後|\d+[.,]?\d* 秒前|\d+[.,]?\d* 秒後|\d+[.,]?\d* 週前|\d+[.,]?\d* 週後|\d+[.,]?\d*個月前|\d+[.,]?\d*個月後|\d+[.,]?\d*小時前|\d+[.,]?\d*小時後|\d+[.,]?\d*分前|\d+[.,]?\d*分後|\d+[.,]?\d*年前|\d+[.,]?\d*年後|\d+[.,]?\d*日前|\d+[.,]?\d*日後|\d+[.,]?\d*秒前|\d+[.,]?\d*秒後|\d+[.,]?\d*週前|\d+[.,]?\d*週後)$");
    ld_known := [lit "這一分鐘";
    lit "這一小時";
    lit "這個小時";
    lit "10月";
    lit "11月";
    lit "12月";
    lit "gmt";
    lit "utc";
    lit "上個月";
    lit "上星期";
    lit "下個月";
    lit "下星期";
    lit "星期一";
    lit "星期三";
    lit "星期二";
    lit "星期五";
    lit "星期六";
    lit "星期四";
    lit "星期日";
    lit "本星期";
    lit "這分鐘";
    lit "1月";
    lit "2月";
    lit "3月";
    lit "4月";
    lit "5月";
    lit "6月";
    lit "7月";
    lit "8月";
    lit "9月";
    lit "am";
    lit "pm";
    lit "上午";
    lit "上年";
    lit "上月";
    lit "上週";
    lit "下午";
    lit "下年";
    lit "下月";
    lit "下週";
    lit "今天";
    lit "今年";
    lit "今日";
    lit "分鐘";
    lit "去年";
    lit "小時";
    lit "明天";
    lit "明年";
    lit "明日";
    lit "星期";
    lit "昨天";
    lit "昨日";
    lit "本月";
    lit "本週";
    lit "現在";
    lit "週一";
    lit "週三";
    lit "週二";
    lit "週五";
    lit "週六";
    lit "週四";
    lit "週日";
    lit " ";
    lit "'";
    lit "+";
    lit ",";
    lit "-";
    lit ".";
    lit "/";
    lit ":";
    lit ";";
    lit "@";
    lit "[";
    lit "]";
    lit "z";
    lit "|";
    lit "分";
    lit "年";
    lit "日";
    lit "時";
    lit "月";
    lit "秒";
    lit "週"] |}.
Definition loc_zh_Hant_MO : locale := merge loc_zh_Hant own_zh_Hant_MO.

(** zu.go:12-116 *)
Definition loc_zu : locale := Eval vm_compute in
  {| ld_name := lit "zu"; ld_order := lit "MDY"; ld_nospacing := false; ld_splitter := 0;
    ld_charset := runes (lit "bcdefghijklnorstuvwyz");
    ld_abbr := [];
    ld_simpl := [];
    ld_trans := [(lit "ulwesithathu", [lit "wednesday"]);
    (lit "ulwesihlanu", [lit "friday"]);
    (lit "umsombuluko", [lit "monday"]);
    (lit "ulwesibili", [lit "tuesday"]);
    (lit "umasingana", [lit "january"]);
    (lit "februwari", [lit "february"]);
    (lit "isekhondi", [lit "second"]);
    (lit "septhemba", [lit "september"]);
    (lit "umgqibelo", [lit "saturday"]);
    (lit "iminithi", [lit "minute"]);
    (lit "januwari", [lit "january"]);
    (lit "ulwesine", [lit "thursday"]);
    (lit "disemba", [lit "december"]);
    (lit "ephreli", [lit "april"]);
    (lit "inyanga", [lit "month"]);
    (lit "novemba", [lit "november"]);
    (lit "okthoba", [lit "october"]);
    (lit "agasti", [lit "august"]);
    (lit "isonto", [lit "sunday"]);
    (lit "julayi", [lit "july"]);
    (lit "unyaka", [lit "year"]);
    (lit "ihora", [lit "hour"]);
    (lit "iviki", [lit "week"]);
    (lit "mashi", [lit "march"]);
    (lit "usuku", [lit "day"]);
    (lit "juni", [lit "june"]);
    (lit "meyi", [lit "may"]);
    (lit "aga", [lit "august"]);
    (lit "bil", [lit "tuesday"]);
    (lit "dis", [lit "december"]);
    (lit "eph", [lit "april"]);
    (lit "feb", [lit "february"]);
    (lit "gmt", [lit "gmt"]);
    (lit "hla", [lit "friday"]);
    (lit "jan", [lit "january"]);
    (lit "jul", [lit "july"]);
    (lit "jun", [lit "june"]);
    (lit "mas", [lit "march"]);
    (lit "mey", [lit "may"]);
    (lit "mgq", [lit "saturday"]);
    (lit "mso", [lit "monday"]);
    (lit "nov", [lit "november"]);
    (lit "okt", [lit "october"]);
    (lit "sep", [lit "september"]);
    (lit "sin", [lit "thursday"]);
    (lit "son", [lit "sunday"]);
    (lit "tha", [lit "wednesday"]);
    (lit "utc", [lit "utc"]);
    (lit "am", [lit "am"]);
    (lit "pm", [lit "pm"]);
    (lit " ", [lit " "]);
    (lit "'", [lit ""]);
    (lit "+", [lit "+"]);
    (lit ",", [lit ""]);
    (lit "-", [lit "-"]);
    (lit ".", [lit "."]);
    (lit "/", [lit "/"]);
    (lit ":", [lit ":"]);
    (lit ";", [lit ""]);
    (lit "@", [lit ""]);
    (lit "[", [lit ""]);
    (lit "]", [lit ""]);
    (lit "z", [lit "z"]);
    (lit "|", [lit ""])];
    ld_reltype := [(lit "onyakeni odlule", lit "1 year ago");
    (lit "inyanga edlule", lit "1 month ago");
    (lit "iviki eledlule", lit "1 week ago");
    (lit "inyanga ezayo", lit "in 1 month");
    (lit "iviki elizayo", lit "in 1 week");
    (lit "leli minithi", lit "0 minute ago");
    (lit "unyaka ozayo", lit "in 1 year");
    (lit "kulo nyaka", lit "0 year ago");
    (lit "le nyanga", lit "0 month ago");
    (lit "leli hora", lit "0 hour ago");
    (lit "leli viki", lit "0 week ago");
    (lit "namhlanje", lit "0 day ago");
    (lit "kusasa", lit "in 1 day");
    (lit "izolo", lit "1 day ago");
    (lit "manje", lit "0 second ago")];
    ld_relrx := [(rx "(?i)(\d+[.,]?\d*) amasekhondi edlule", lit "$1 second ago");
    (rx "(?i)(\d+[.,]?\d*) isekhondi eledlule", lit "$1 second ago");
    (rx "(?i)(\d+[.,]?\d*) izinyanga ezedlule", lit "$1 month ago");
    (rx "(?i)(\d+[.,]?\d*) amaminithi edlule", lit "$1 minute ago");
    (rx "(?i)(\d+[.,]?\d*) iminithi eledlule", lit "$1 minute ago");
    (rx "(?i)(\d+[.,]?\d*) izinsuku ezedlule", lit "$1 day ago");
    (rx "(?i)(\d+[.,]?\d*) iminyaka edlule", lit "$1 year ago");
    (rx "(?i)(\d+[.,]?\d*) usuku olwedlule", lit "$1 day ago");
    (rx "(?i)(\d+[.,]?\d*) amahora edlule", lit "$1 hour ago");
    (rx "(?i)(\d+[.,]?\d*) ihora eledlule", lit "$1 hour ago");
    (rx "(?i)(\d+[.,]?\d*) inyanga edlule", lit "$1 month ago");
    (rx "(?i)(\d+[.,]?\d*) unyaka odlule", lit "$1 year ago")];
    ld_rx := Some (rx "(?i)(\A|[^\pL\pM\d]|_)(\d+[.,]?\d* amasekhondi edlule|\d+[.,]?\d* isekhondi eledlule|\d+[.,]?\d* izinyanga ezedlule|\d+[.,]?\d* amaminithi edlule|\d+[.,]?\d* iminithi eledlule|\d+[.,]?\d* izinsuku ezedlule|\d+[.,]?\d* iminyaka edlule|\d+[.,]?\d* usuku olwedlule|\d+[.,]?\d* amahora edlule|\d+[.,]?\d* ihora eledlule|\d+[.,]?\d* inyanga edlule|\d+[.,]?\d* unyaka odlule)(\z|[^\pL\pM\d]|_)");
    ld_rx_exact := Some (rx "(?i)^(\d+[.,]?\d* amasekhondi edlule|\d+[.,]?\d* isekhondi eledlule|\d+[.,]?\d* izinyanga ezedlule|\d+[.,]?\d* amaminithi edlule|\d+[.,]?\d* iminithi eledlule|\d+[.,]?\d* izinsuku ezedlule|\d+[.,]?\d* iminyaka edlule|\d+[.,]?\d* usuku olwedlule|\d+[.,]?\d* amahora edlule|\d+[.,]?\d* ihora eledlule|\d+[.,]?\d* inyanga edlule|\d+[.,]?\d* unyaka odlule)$");
    ld_known := [lit "onyakeni odlule";
    lit "inyanga edlule";
    lit "iviki eledlule";
    lit "inyanga ezayo";
    lit "iviki elizayo";
    lit "leli minithi";
    lit "ulwesithathu";
    lit "unyaka ozayo";
    lit "ulwesihlanu";
    lit "umsombuluko";
    lit "kulo nyaka";
    lit "ulwesibili";
    lit "umasingana";
    lit "februwari";
    lit "isekhondi";
    lit "le nyanga";
    lit "leli hora";
    lit "leli viki";
    lit "namhlanje";
    lit "septhemba";
    lit "umgqibelo";
    lit "iminithi";
    lit "januwari";
    lit "ulwesine";
    lit "disemba";
    lit "ephreli";
    lit "inyanga";
    lit "novemba";
    lit "okthoba";
    lit "agasti";
    lit "isonto";
    lit "julayi";
    lit "kusasa";
    lit "unyaka";
    lit "ihora";
    lit "iviki";
    lit "izolo";
    lit "manje";
    lit "mashi";
    lit "usuku";
    lit "juni";
    lit "meyi";
    lit "aga";
    lit "bil";
    lit "dis";
    lit "eph";
    lit "feb";
    lit "gmt";
    lit "hla";
    lit "jan";
    lit "jul";
    lit "jun";
    lit "mas";
    lit "mey";
    lit "mgq";
    lit "mso";
    lit "nov";
    lit "okt";
    lit "sep";
    lit "sin";
    lit "son";
    lit "tha";
    lit "utc";
    lit "am";
    lit "pm";
    lit " ";
    lit "'";
    lit "+";
    lit ",";
    lit "-";
    lit ".";
    lit "/";
    lit ":";
    lit ";";
    lit "@";
    lit "[";
    lit "]";
    lit "z";
    lit "|"] |}.

(** all patterns above are accepted by the syntax parser *)
Example patterns_ok : forallb (fun s => match parse_regex s with Some _ => true | None => false end)
  [lit "(?i)(\A|[^\pL\pM\d]|_)(\d+[.,]?\d* amasekhondi edlule|\d+[.,]?\d* isekhondi eledlule|\d+[.,]?\d* izinyanga ezedlule|\d+[.,]?\d* amaminithi edlule|\d+[.,]?\d* iminithi eledlule|\d+[.,]?\d* izinsuku ezedlule|\d+[.,]?\d* iminyaka edlule|\d+[.,]?\d* usuku olwedlule|\d+[.,]?\d* amahora edlule|\d+[.,]?\d* ihora eledlule|\d+[.,]?\d* inyanga edlule|\d+[.,]?\d* unyaka odlule)(\z|[^\pL\pM\d]|_)";
  lit "(?i)(\d+[.,]?\d* 個月前|\d+[.,]?\d* 個月後|\d+[.,]?\d* 分鐘前|\d+[.,]?\d* 分鐘後|\d+[.,]?\d* 小時前|\d+[.,]?\d* 小時後|\d+[.,]?\d* 天前|\d+[.,]?\d* 天後|\d+[.,]?\d* 年前|\d+[.,]?\d* 年後|\d+[.,]?\d* 秒前|\d+[.,]?\d* 秒後|\d+[.,]?\d* 週前|\d+[.,]?\d* 週後)";
  lit "(?i)(\d+[.,]?\d* 個月前|\d+[.,]?\d* 個月後|\d+[.,]?\d* 分鐘前|\d+[.,]?\d* 分鐘後|\d+[.,]?\d* 小時前|\d+[.,]?\d* 小時後|\d+[.,]?\d* 星期前|\d+[.,]?\d* 星期後|\d+[.,]?\d* 天前|\d+[.,]?\d* 天後|\d+[.,]?\d* 年前|\d+[.,]?\d* 年後|\d+[.,]?\d* 日前|\d+[.,]?\d* 日後|\d+[.,]?\d* 秒前|\d+[.,]?\d* 秒後|\d+[.,]?\d* 週前|\d+[.,]?\d* 週後|\d+[.,]?\d*個月前|\d+[.,]?\d*個月後|\d+[.,]?\d*小時前|\d+[.,]?\d*小時後|\d+[.,]?\d*分前|\d+[.,]?\d*分後|\d+[.,]?\d*年前|\d+[.,]?\d*年後|\d+[.,]?\d*日前|\d+[.,]?\d*日後|\d+[.,]?\d*秒前|\d+[.,]?\d*秒後|\d+[.,]?\d*週前|\d+[.,]?\d*週後)";
  lit "(?i)(\d+[.,]?\d*) amahora edlule";
  lit "(?i)(\d+[.,]?\d*) amaminithi edlule";
  lit "(?i)(\d+[.,]?\d*) amasekhondi edlule";
  lit "(?i)(\d+[.,]?\d*) ihora eledlule";
  lit "(?i)(\d+[.,]?\d*) iminithi eledlule";
  lit "(?i)(\d+[.,]?\d*) iminyaka edlule";
  lit "(?i)(\d+[.,]?\d*) inyanga edlule";
  lit "(?i)(\d+[.,]?\d*) isekhondi eledlule";
  lit "(?i)(\d+[.,]?\d*) izinsuku ezedlule";
  lit "(?i)(\d+[.,]?\d*) izinyanga ezedlule";
  lit "(?i)(\d+[.,]?\d*) unyaka odlule";
  lit "(?i)(\d+[.,]?\d*) usuku olwedlule";
  lit "(?i)(\d+[.,]?\d*) 個月前";
  lit "(?i)(\d+[.,]?\d*) 個月後";
  lit "(?i)(\d+[.,]?\d*) 分鐘前";
  lit "(?i)(\d+[.,]?\d*) 分鐘後";
  lit "(?i)(\d+[.,]?\d*) 天前";
  lit "(?i)(\d+[.,]?\d*) 天後";
  lit "(?i)(\d+[.,]?\d*) 小時前";
  lit "(?i)(\d+[.,]?\d*) 小時後";
  lit "(?i)(\d+[.,]?\d*) 年前";
  lit "(?i)(\d+[.,]?\d*) 年後";
  lit "(?i)(\d+[.,]?\d*) 日前";
  lit "(?i)(\d+[.,]?\d*) 日後";
  lit "(?i)(\d+[.,]?\d*) 星期前";
  lit "(?i)(\d+[.,]?\d*) 星期後";
  lit "(?i)(\d+[.,]?\d*) 秒前";
  lit "(?i)(\d+[.,]?\d*) 秒後";
  lit "(?i)(\d+[.,]?\d*) 週前";
  lit "(?i)(\d+[.,]?\d*) 週後";
  lit "(?i)(\d+[.,]?\d*)個月前";
  lit "(?i)(\d+[.,]?\d*)個月後";
  lit "(?i)(\d+[.,]?\d*)分前";
  lit "(?i)(\d+[.,]?\d*)分後";
  lit "(?i)(\d+[.,]?\d*)小時前";
  lit "(?i)(\d+[.,]?\d*)小時後";
  lit "(?i)(\d+[.,]?\d*)年前";
  lit "(?i)(\d+[.,]?\d*)年後";
  lit "(?i)(\d+[.,]?\d*)日前";
  lit "(?i)(\d+[.,]?\d*)日後";
  lit "(?i)(\d+[.,]?\d*)秒前";
  lit "(?i)(\d+[.,]?\d*)秒後";
  lit "(?i)(\d+[.,]?\d*)週前";
  lit "(?i)(\d+[.,]?\d*)週後";
  lit "(?i)^(\d+[.,]?\d* amasekhondi edlule|\d+[.,]?\d* isekhondi eledlule|\d+[.,]?\d* izinyanga ezedlule|\d+[.,]?\d* amaminithi edlule|\d+[.,]?\d* iminithi eledlule|\d+[.,]?\d* izinsuku ezedlule|\d+[.,]?\d* iminyaka edlule|\d+[.,]?\d* usuku olwedlule|\d+[.,]?\d* amahora edlule|\d+[.,]?\d* ihora eledlule|\d+[.,]?\d* inyanga edlule|\d+[.,]?\d* unyaka odlule)$";
  lit "(?i)^(\d+[.,]?\d* 個月前|\d+[.,]?\d* 個月後|\d+[.,]?\d* 分鐘前|\d+[.,]?\d* 分鐘後|\d+[.,]?\d* 小時前|\d+[.,]?\d* 小時後|\d+[.,]?\d* 天前|\d+[.,]?\d* 天後|\d+[.,]?\d* 年前|\d+[.,]?\d* 年後|\d+[.,]?\d* 秒前|\d+[.,]?\d* 秒後|\d+[.,]?\d* 週前|\d+[.,]?\d* 週後)$";
  lit "(?i)^(\d+[.,]?\d* 個月前|\d+[.,]?\d* 個月後|\d+[.,]?\d* 分鐘前|\d+[.,]?\d* 分鐘後|\d+[.,]?\d* 小時前|\d+[.,]?\d* 小時後|\d+[.,]?\d* 星期前|\d+[.,]?\d* 星期後|\d+[.,]?\d* 天前|\d+[.,]?\d* 天後|\d+[.,]?\d* 年前|\d+[.,]?\d* 年後|\d+[.,]?\d* 日前|\d+[.,]?\d* 日後|\d+[.,]?\d* 秒前|\d+[.,]?\d* 秒後|\d+[.,]?\d* 週前|\d+[.,]?\d* 週後|\d+[.,]?\d*個月前|\d+[.,]?\d*個月後|\d+[.,]?\d*小時前|\d+[.,]?\d*小時後|\d+[.,]?\d*分前|\d+[.,]?\d*分後|\d+[.,]?\d*年前|\d+[.,]?\d*年後|\d+[.,]?\d*日前|\d+[.,]?\d*日後|\d+[.,]?\d*秒前|\d+[.,]?\d*秒後|\d+[.,]?\d*週前|\d+[.,]?\d*週後)$"] = true.
Proof. vm_compute. reflexivity. Qed.

Definition table_13 : list (str * locale) :=
  [(lit "zh-Hant", loc_zh_Hant);
   (lit "zh-Hant-HK", loc_zh_Hant_HK);
   (lit "zh-Hant-MO", loc_zh_Hant_MO);
   (lit "zh", loc_zh);
   (lit "zu", loc_zu)].

(** each region with its language *)
Definition regions_13 : list (str * str) :=
  [(lit "zh-Hant-HK", lit "zh-Hant");
   (lit "zh-Hant-MO", lit "zh-Hant")].
