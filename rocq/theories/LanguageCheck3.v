(** The languages of LanguageWords read their month names as they should: tables 05, 06, 07, 08 *)
From Verif Require Import GoBase Language LocaleAll05 LocaleAll06 LocaleAll07 LocaleAll08 LanguageWords.
Lemma words_05 : forallb entry_ok table_05 = true.
Proof. vm_compute. reflexivity. Qed.
Lemma words_06 : forallb entry_ok table_06 = true.
Proof. vm_compute. reflexivity. Qed.
Lemma words_07 : forallb entry_ok table_07 = true.
Proof. vm_compute. reflexivity. Qed.
Lemma words_08 : forallb entry_ok table_08 = true.
Proof. vm_compute. reflexivity. Qed.
