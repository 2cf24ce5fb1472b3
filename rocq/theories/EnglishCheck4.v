(** English reads the texts of EnglishForms as it should *)
From Verif Require Import GoBase LocaleData TextForms TextValues TextFast EnglishForms EnglishCheck.
Lemma check_day_month : ok_forms loc_en day_month_forms day_forms month_names none any_weekday none = true.
Proof. apply quick_forms_ok. vm_compute. reflexivity. Qed.
Lemma check_ordinal_day_month : ok_forms loc_en ordinal_day_month_forms day_forms english_months none any_weekday none = true.
Proof. apply quick_forms_ok. vm_compute. reflexivity. Qed.
Lemma check_day_month_time : ok_forms loc_en day_month_time_forms day_forms english_months none any_weekday clock_forms = true.
Proof. apply quick_forms_ok. vm_compute. reflexivity. Qed.
