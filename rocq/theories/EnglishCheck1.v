(** English reads the texts of EnglishForms as it should *)
From Verif Require Import GoBase LocaleData TextForms TextValues TextFast EnglishForms EnglishCheck.
Lemma check_date : ok_forms loc_en date_forms day_forms month_names year4 any_weekday none = true.
Proof. apply quick_forms_ok. vm_compute. reflexivity. Qed.
Lemma check_ordinal_date : ok_forms loc_en ordinal_date_forms day_forms english_months year4 any_weekday none = true.
Proof. apply quick_forms_ok. vm_compute. reflexivity. Qed.
