(** English reads the texts of EnglishForms as it should *)
From Verif Require Import GoBase LocaleData TextForms TextValues TextFast EnglishForms EnglishCheck.
Lemma check_weekday_date : ok_forms loc_en weekday_date_forms day_forms english_months year4 english_weekdays none = true.
Proof. apply quick_forms_ok. vm_compute. reflexivity. Qed.
Lemma check_short_weekday_date : ok_forms loc_en short_weekday_date_forms day_forms short_months year4 short_weekdays none = true.
Proof. apply quick_forms_ok. vm_compute. reflexivity. Qed.
