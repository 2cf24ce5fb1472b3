(** The languages of LanguageWords read their month names as they should: tables 03, 04 *)
From Verif Require Import GoBase Language LocaleAll03 LocaleAll04 LanguageWords.
Lemma words_03 : forallb entry_ok table_03 = true.
Proof. vm_compute. reflexivity. Qed.
Lemma words_04 : forallb entry_ok table_04 = true.
Proof. vm_compute. reflexivity. Qed.
