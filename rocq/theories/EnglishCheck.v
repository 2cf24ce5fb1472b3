(** English reads the texts of EnglishForms as it should *)
From Verif Require Import GoBase LocaleData TextForms TextValues TextFast EnglishForms.
Lemma check_blind : TextRename.blind loc_en = true.
Proof. vm_compute. reflexivity. Qed.
Lemma check_mixed : rel_patterns_mixed loc_en = true.
Proof. vm_compute. reflexivity. Qed.
Lemma check_month_year : ok_forms loc_en month_year_forms none month_names year4 any_weekday none = true.
Proof. apply quick_forms_ok. vm_compute. reflexivity. Qed.
Lemma check_year : ok_forms loc_en year_forms none any_month year4 any_weekday none = true.
Proof. apply quick_forms_ok. vm_compute. reflexivity. Qed.
Lemma check_weekday : ok_forms loc_en weekday_forms none any_month none weekday_names none = true.
Proof. apply quick_forms_ok. vm_compute. reflexivity. Qed.
Lemma check_weekday_time : ok_forms loc_en weekday_time_forms none any_month none english_weekdays (clock_forms ++ hour_forms ++ second_forms) = true.
Proof. apply quick_forms_ok. vm_compute. reflexivity. Qed.
Lemma check_time : ok_forms loc_en time_forms none any_month none any_weekday (clock_forms ++ hour_forms ++ second_forms) = true.
Proof. apply quick_forms_ok. vm_compute. reflexivity. Qed.
Lemma check_short_year : ok_forms loc_en short_year_forms day_forms month_names [lit "34"] any_weekday none = true.
Proof. apply quick_forms_ok. vm_compute. reflexivity. Qed.
