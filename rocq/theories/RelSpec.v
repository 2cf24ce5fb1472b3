(** The time from which a relative date is counted *)
From Verif Require Import GoBase GoTime Setting Timezone Env Relative.

(** the current time: that of the configuration if it is set, otherwise the clock's *)
Definition current_time (E : env) (cfg : config) : time := if is_zero (c_now cfg) then in_loc (e_now E) utc else c_now cfg.
(** the time zone: the one written in the text, otherwise the default time zone, otherwise that of the current time *)
Definition base_zone (E : env) (cfg : config) (tz : offset_data) : location :=
  if od_is_zero tz then match c_tz cfg with Some l => l | None => t_loc (current_time E cfg) end else fixed_zone (od_name tz) (od_off tz).
Definition here (E : env) (cfg : config) (tz : offset_data) : time := in_loc (current_time E cfg) (base_zone E cfg tz).
Lemma rel_now_here E cfg tz : rel_now E cfg tz = here E cfg tz.
Proof.
  unfold rel_now, here, base_zone, current_time, now_utc. destruct (od_is_zero tz); cbn [negb]; [|reflexivity]. destruct (c_tz cfg); [reflexivity|]. destruct (if is_zero (c_now cfg) then _ else _). reflexivity.
Qed.
