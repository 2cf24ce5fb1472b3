(** Generated by tools/gen_all_locales.py from /repo/internal/data. Do not edit. *)
From Verif Require Import GoBase SMap Regex Language LocaleData LocaleAll01 LocaleAll02 LocaleAll03 LocaleAll04 LocaleAll05 LocaleAll06 LocaleAll07 LocaleAll08 LocaleAll09 LocaleAll10 LocaleAll11 LocaleAll12 LocaleAll13.

(** GetLocaleData (00-locale-data.go:82-1099): all locales *)
Definition full_table : smap locale :=
  table_01 ++ table_02 ++ table_03 ++ table_04 ++ table_05 ++ table_06 ++ table_07 ++ table_08 ++ table_09 ++ table_10 ++ table_11 ++ table_12 ++ table_13.
Definition full_regions : list (str * str) :=
  regions_01 ++ regions_02 ++ regions_03 ++ regions_04 ++ regions_05 ++ regions_06 ++ regions_07 ++ regions_08 ++ regions_09 ++ regions_10 ++ regions_11 ++ regions_12 ++ regions_13.
Definition full_db : langdb :=
  {| db_get := mget full_table; db_langs := language_order; db_order := mget_or 0 locale_order |}.
