(** The languages of LanguageWords read their month names as they should: tables 09, 10, 11, 12, 13 *)
From Verif Require Import GoBase Language LocaleAll09 LocaleAll10 LocaleAll11 LocaleAll12 LocaleAll13 LanguageWords.
Lemma words_09 : forallb entry_ok table_09 = true.
Proof. vm_compute. reflexivity. Qed.
Lemma words_10 : forallb entry_ok table_10 = true.
Proof. vm_compute. reflexivity. Qed.
Lemma words_11 : forallb entry_ok table_11 = true.
Proof. vm_compute. reflexivity. Qed.
Lemma words_12 : forallb entry_ok table_12 = true.
Proof. vm_compute. reflexivity. Qed.
Lemma words_13 : forallb entry_ok table_13 = true.
Proof. vm_compute. reflexivity. Qed.
