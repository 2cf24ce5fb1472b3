(** C49, C50: the time zone of relative dates *)
From Coq Require Import ZifyBool.
From Verif Require Import GoBase SMap Regex Civil GoTime GoTimeFacts GoFloat Strutil Setting Timezone Env Common Relative RelSpec AbsFacts2 AbsSpec RegexFacts Prop_Timestamp Prop_Relative Prop_Clocktime RelFacts
  RelText RelText2 Spec Parser Shows Prop_Parser Prop_Absolute3 Prop_RelDir Prop_RelExact Concrete LocaleData.
Ltac Zify.zify_post_hook ::= Z.div_mod_to_equations.

(** A relative date is in the zone written in the text, otherwise in the default time zone, otherwise in that of the current time: for every text, configuration and zone *)
Lemma rel_apply_loc cfg m b now : t_loc (rel_apply cfg m b now) = t_loc now.
Proof.
  assert (A : forall y mo d, t_loc (rel_add_date cfg now y mo d) = t_loc now) by (intros y mo d; unfold rel_add_date, add_date; destruct (negb (c_preserve cfg)); reflexivity).
  unfold rel_apply. cbv zeta. destruct b; unfold add; cbn [t_loc]; apply A.
Qed.
Theorem C49_zone : forall E cfg s0 s tz, etz_pop E (strip_braces s0) = (s, tz) ->
  is_zero (d_time (relative_parse E cfg s0)) = false -> t_loc (d_time (relative_parse E cfg s0)) = base_zone E cfg tz.
Proof.
  intros E cfg s0 s tz HP. unfold relative_parse. rewrite HP, rel_now_here. destruct (match rel_parse_time E s with Some p => p | None => _ end) as [t tp]. unfold rel_parse_date. destruct (negb (all_words_units E s)).
  { change (is_zero zero_time) with true. cbn [negb andb]. unfold mkd. cbn [d_time]. discriminate. }
  destruct (get_durations E s) as [|p m]; [change (is_zero zero_time) with true; cbn [negb andb]; unfold mkd; cbn [d_time]; discriminate|]. 
  set (r := rel_apply _ _ _ _). assert (L : t_loc r = base_zone E cfg tz) by apply rel_apply_loc. clearbody r. destruct (negb (is_zero r) && negb (is_zero t)); unfold mkd; cbn [d_time]; intros _; [|exact L]. unfold mk_date. cbn [t_loc]. exact L.
Qed.
Print Assumptions C49_zone.

(** through Parse, when only relative dates are tried *)
Theorem C49_parse_zone : forall E D det p cfg s p' d, p_types p = [2] ->
  parse E D det p cfg s [] = (p', Ok (d, None)) -> d_locale d <> [] ->
  (exists name off, t_loc (d_time d) = fixed_zone name off /\ exists text rest tz, etz_pop E text = (rest, tz) /\ od_is_zero tz = false /\ od_name tz = name /\ od_off tz = off) \/
  t_loc (d_time d) = match u_tz cfg with Some l => l | None => if is_zero (u_now cfg) then utc else t_loc (u_now cfg) end.
Proof.
  intros E D det p cfg s p' d HT HP HL. destruct (C06_first_sub_parser_wins E D det p cfg s [] p' d HP HL) as (ld & lcfg & bef & ty & aft & trs & trf & d0 & -> & ET & _ & _ & _ & HC & HS & _).
  rewrite HT in ET. assert (ty = 2) as -> by (destruct bef as [|b bef]; cbn [app] in ET; [congruence|]; destruct bef; discriminate ET).
  destruct HS as [HU [[X _]|[[X _]|[[_ HF]|[[X _]|[[X _]|[X _]]]]]]]; try discriminate X. destruct HF as (l1 & x & l2 & _ & ED & _ & _). cbn [with_locale d_time].
  assert (NZ : is_zero (d_time d0) = false) by (apply usable_iff in HU; unfold date_is_zero in HU; now apply orb_false_iff in HU).
  destruct (etz_pop E (strip_braces x)) as [rest tz] eqn:EP. rewrite ED in NZ |- *. rewrite (C49_zone E lcfg x rest tz EP NZ). unfold base_zone. destruct (od_is_zero tz) eqn:OZ.
  - right. rewrite HC. unfold current_time. cbn [with_order to_internal c_tz c_now]. change (u_tz (initiate (e_now E) cfg)) with (u_tz cfg). destruct (u_tz cfg); [reflexivity|].
    unfold initiate, uclone. cbn [u_now]. destruct (is_zero (u_now cfg)) eqn:Z; [|rewrite Z; reflexivity]. destruct (is_zero (in_loc (e_now E) utc)); reflexivity.
  - left. exists (od_name tz), (od_off tz). split; [reflexivity|]. exists (strip_braces x), rest, tz. auto.
Qed.
Print Assumptions C49_parse_zone.

(** Amounts of hours, minutes and seconds alone move the instant by that duration, whatever the zones, as long as the zone has a fixed offset *)
Definition clock_unit (u : tunit) : Prop := In u [Hour; Minute; Second].
Lemma no_units l u : Forall (fun x => clock_unit (i_unit x)) l -> ~ clock_unit u -> count_of l u = 0.
Proof.
  intros H N. unfold count_of. assert (amount_of l u = None) as ->; [|reflexivity]. induction H as [|x l Hx _ IH]; [reflexivity|]. cbn [amount_of]. destruct (tunit_eq_dec (i_unit x) u) as [EQ|]; [rewrite EQ in Hx; exfalso; now apply N|exact IH].
Qed.
Lemma same_day p t : fixed (t_loc t) -> moved_day p t 0 0 0 = local_days t.
Proof.
  intros HF. unfold moved_day. set (k := month_index t + (12 * 0 + 0)). destruct (civil_valid t) as [[V1 V2] _].
  assert (K : k / 12 = year t /\ k mod 12 + 1 = month t) by (unfold k, month_index; lia). destruct K as [-> ->].
  assert (SD : (if p then Z.min (day t) (days_in (year t) (month t)) else day t) = day t) by (destruct p; [lia|reflexivity]). rewrite SD.
  rewrite local_days_index. unfold k. rewrite Z.mul_0_r, !Z.add_0_r. reflexivity.
Qed.
Theorem C50_elapsed_partial : forall E cfg s0 i l a tz, uni_ascii (e_uni E) ->
  l <> [] -> Forall item_ok l -> NoDup (map i_unit l) -> Forall (fun x => clock_unit (i_unit x)) l ->
  etz_pop E (strip_braces s0) = (rel_string i l a, tz) ->
  fixed (base_zone E cfg tz) -> wf_time (current_time E cfg) ->
  instant (d_time (relative_parse E cfg s0)) =
  instant (current_time E cfg) + direction cfg i a * (3600 * count_of l Hour + 60 * count_of l Minute + count_of l Second) * 1000000000.
Proof.
  intros E cfg s0 i l a tz UA NE H HN HC HP HF HW. destruct (C20_exact E cfg s0 i l a tz UA NE H HN HP) as (T & _); [exact HF|exact HW|]. cbv zeta in T. rewrite T.
  assert (N : forall u, In u [Decade; Year; Month; Week; Day] -> count_of l u = 0).
  { intros u Hu. apply no_units; [exact HC|]. unfold clock_unit. cbn [In] in *. destruct Hu as [<-|[<-|[<-|[<-|[<-|[]]]]]]; intuition discriminate. }
  rewrite !N by (cbn [In]; auto 10). set (g := direction cfg i a). assert (g * (10 * 0 + 0) = 0 /\ g * 0 = 0 /\ g * (7 * 0 + 0) = 0) as (-> & -> & ->) by lia. rewrite same_day by exact HF. change (instant (here E cfg tz)) with (instant (current_time E cfg)). lia.
Qed.
Print Assumptions C50_elapsed_partial.

(** Around the end of summer time it fails: at 02:30 summer time in Berlin, "1 second ago" is almost an hour later, at 02:29:59 winter time *)
Definition berlin : location :=
  {| l_name := lit "Europe/Berlin"; l_base := {| z_name := lit "CEST"; z_off := 7200 |}; l_trans := [(1635642000, {| z_name := lit "CET"; z_off := 3600 |})] |}.
Definition berlin_now : time := in_loc (utc_at 2021 10 31 0 30 0) berlin.
Theorem C50_elapsed_refuted : hour berlin_now = 2 /\ minute berlin_now = 30 /\
  exists r, instant_of (go "" berlin_now 0 0 0 "1 second ago") = Some r /\ r = instant berlin_now + 3599 * 1000000000.
Proof. split; [vm_compute; reflexivity|]. split; [vm_compute; reflexivity|]. eexists. split; vm_compute; reflexivity. Qed.
Print Assumptions C50_elapsed_refuted.

(** cases that meet the hypotheses *)
Definition zone_cfg : config := acfg "" (utc_at 2016 3 31 10 0 0) 0 0 0.
Example C49_case : exists s tz, etz_pop env0 (strip_braces (lit "2 hour ago EST")) = (s, tz) /\ is_zero (d_time (relative_parse env0 zone_cfg (lit "2 hour ago EST"))) = false /\ z_off (l_base (base_zone env0 zone_cfg tz)) = -18000.
Proof. eexists. eexists. split; [vm_compute; reflexivity|]. split; vm_compute; reflexivity. Qed.
Example C50_case : let l := [ {| i_num := lit "36"; i_unit := Hour; i_comma := true |}; {| i_num := lit "5"; i_unit := Second; i_comma := false |} ] in
  exists tz, etz_pop env0 (strip_braces (lit "36 hour, 5 second ago")) = (rel_string false l true, tz) /\ Forall item_ok l /\ NoDup (map i_unit l) /\ Forall (fun x => clock_unit (i_unit x)) l /\
  fixed (base_zone env0 zone_cfg tz) /\ wf_time (current_time env0 zone_cfg).
Proof.
  cbv zeta. eexists. split; [vm_compute; reflexivity|]. split; [|split; [|split; [|split]]].
  - apply Forall_cons; [|apply Forall_cons; [|constructor]]; (split; [split; [discriminate|repeat constructor; cbn; lia]|vm_compute; discriminate]).
  - repeat constructor; cbn [map i_unit In]; intuition discriminate.
  - apply Forall_cons; [|apply Forall_cons; [|constructor]]; unfold clock_unit; cbn; auto.
  - vm_compute. reflexivity.
  - vm_compute. split; discriminate || reflexivity.
Qed.
