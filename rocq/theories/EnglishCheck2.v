(** English reads the texts of EnglishForms as it should *)
From Verif Require Import GoBase LocaleData TextForms TextValues TextFast EnglishForms EnglishCheck.
Lemma check_date_time : ok_forms loc_en date_time_forms day_forms english_months year4 any_weekday clock_forms = true.
Proof. apply quick_forms_ok. vm_compute. reflexivity. Qed.
Lemma check_short_date_time : ok_forms loc_en short_date_time_forms day_forms short_months year4 any_weekday plain_clock_forms = true.
Proof. apply quick_forms_ok. vm_compute. reflexivity. Qed.
