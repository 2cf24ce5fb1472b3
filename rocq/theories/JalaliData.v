(** Generated by tools/gen_jalali.py from internal/parser/jalali/translate.go:11-113 and internal/parser/hijri/parser.go:18-21 *)
From Verif Require Import GoBase Regex.
Local Open Scope string_scope.
Definition month_names : list (string * list string) :=
  [("Farvardin", ["فروردین"]);
   ("Ordibehesht", ["اردیبهشت"]);
   ("Khordad", ["خرداد"]);
   ("Tir", ["تیر"]);
   ("Mordad", ["امرداد"; "مرداد"]);
   ("Shahrivar", ["شهریور"; "شهريور"]);
   ("Mehr", ["مهر"]);
   ("Aban", ["ابان"]);
   ("Azar", ["اذر"]);
   ("Dey", ["دی"]);
   ("Bahman", ["بهمن"; "بهن"]);
   ("Esfand", ["اسفند"])].
Definition month_name_values : list (string * Z) :=
  [("Farvardin", 1); ("Ordibehesht", 2); ("Khordad", 3); ("Tir", 4); ("Mordad", 5); ("Shahrivar", 6); ("Mehr", 7); ("Aban", 8); ("Azar", 9); ("Dey", 10); ("Bahman", 11); ("Esfand", 12)].
Definition weekday_tr : list (string * list string) :=
  [("IekShanbe", ["یکشنبه"]);
   ("DoShanbe", ["دوشنبه"]);
   ("SeShanbe", ["سهشنبه"; "سه شنبه"]);
   ("ChaharShanbe", ["چهارشنبه"; "چهار شنبه"]);
   ("PanjShanbe", ["پنجشنبه"; "پنج شنبه"]);
   ("Jome", ["جمعه"]);
   ("Shanbe", ["روز شنبه"; "شنبه"])].
Definition day_numbers : list (Z * list string) :=
  [(31, ["سی و یک"]);
   (13, ["سیزده"]);
   (29, ["بیست و نه"]);
   (28, ["بیست و هشت"]);
   (27, ["بیست و هفت"]);
   (26, ["بیست و شش"]);
   (25, ["بیست و پنج"]);
   (24, ["بیست و چهار"]);
   (23, ["بیست و سه"; "بیست و سو"]);
   (22, ["بیست و دو"; "بیست ثانیه"]);
   (21, ["بیست و یک"]);
   (20, ["بیست"]);
   (19, ["نوزده"]);
   (18, ["هجده"]);
   (17, ["هفده"]);
   (16, ["شانزده"]);
   (15, ["پانزده"]);
   (14, ["چهارده"]);
   (30, ["سی"]);
   (12, ["دوازده"]);
   (11, ["یازده"]);
   (10, ["ده"]);
   (9, ["نه"]);
   (8, ["هشت"]);
   (7, ["هفت"]);
   (6, ["شش"]);
   (5, ["پنج"]);
   (4, ["چهار"]);
   (3, ["سه"; "سو"]);
   (2, ["دو"]);
   (1, ["یک"; "اول"]);
   (0, ["صفر"])].
Definition rxHourPattern : regex := Eval vm_compute in rxc "ساعت\s+\d{2}".
Definition rxMinutePattern : regex := Eval vm_compute in rxc "\d{2}\s+دقیقه".
Definition rxSecondPattern : regex := Eval vm_compute in rxc "\d{2}\s+ثانیه".
Definition rxColonPattern : regex := Eval vm_compute in rxc "\s+و\s+".
Definition rxOrdinalPattern : regex := Eval vm_compute in rxc "ام|م|ین".
Definition rxNonDigit : regex := Eval vm_compute in rxc "\D".
Definition hour_word : string := "ساعت".
(** timeConventions of internal/parser/hijri: (latin, arabic) *)
Definition time_conventions : list (string * string) := [("am", "صباحا"); ("pm", "مساء")].
