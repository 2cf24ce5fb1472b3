(** The languages of LanguageWords read their month names as they should: tables 01, 02 *)
From Verif Require Import GoBase Language LocaleAll01 LocaleAll02 LanguageWords.
Lemma words_01 : forallb entry_ok table_01 = true.
Proof. vm_compute. reflexivity. Qed.
Lemma words_02 : forallb entry_ok table_02 = true.
Proof. vm_compute. reflexivity. Qed.
