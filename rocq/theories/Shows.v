(** Concrete results, checked by evaluation: used for the examples beside the theorems and for refutations *)
From Verif Require Import GoBase SMap GoTime Setting Parser.

Definition same (t : time) (y m d h mi s ns : Z) : bool :=
  (year t =? y) && (month t =? m) && (day t =? d) && (hour t =? h) && (minute t =? mi) && (second t =? s) && (nanosecond t =? ns).
Definition showsb (r : res ret) (y m d h mi s ns : Z) (p : period) (loc : str) : bool :=
  match r with
  | Ok (dt, None) => same (d_time dt) y m d h mi s ns && period_eqb (d_period dt) p && eqs (d_locale dt) loc
  | _ => false
  end.
(** the call returned this wall clock, period and locale, and no error *)
Definition shows (r : res ret) (y m d h mi s ns : Z) (p : period) (loc : str) : Prop :=
  exists dt, r = Ok (dt, None) /\ year (d_time dt) = y /\ month (d_time dt) = m /\ day (d_time dt) = d /\
    hour (d_time dt) = h /\ minute (d_time dt) = mi /\ second (d_time dt) = s /\ nanosecond (d_time dt) = ns /\
    d_period dt = p /\ d_locale dt = loc.
Lemma shows_by r y m d h mi s ns p loc : showsb r y m d h mi s ns p loc = true -> shows r y m d h mi s ns p loc.
Proof.
  unfold showsb, shows, same. destruct r as [[dt [e|]]|e|]; try discriminate.
  rewrite !andb_true_iff, !Z.eqb_eq. intros [[[[[[[[? ?] ?] ?] ?] ?] ?] Hp] Hl]. exists dt.
  apply eqs_eq in Hl. repeat split; auto. destruct (d_period dt), p; (reflexivity || discriminate).
Qed.

(** configurations for the examples: locales, DateOrder ("" = nil), CurrentTime, PreferredDateSource, PreferredDayOfMonth, PreferredMonthOfYear *)
Definition utc_at (y m d h mi s : Z) : time := mk_date y m d h mi s 0 utc.
Definition mkcfg (locales : list str) (order : str) (now : time) (src pday pmonth : Z) : uconfig :=
  {| u_locales := locales; u_languages := []; u_region := []; u_try_prev := false; u_given_order := false;
     u_deflang := []; u_order := match order with [] => None | _ => Some (fun _ => order) end; u_now := now; u_tz := None;
     u_pday := pday; u_pmonth := pmonth; u_src := src;
     u_strict := false; u_required := []; u_skip := []; u_timeperiod := false; u_preserve := false |}.
