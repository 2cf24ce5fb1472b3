(** The month names of the languages of the library that are written in ASCII, and the texts made with them. Specification and the checks that each language reads them as it should. *)
From Coq Require Import ZifyBool.
From Verif Require Import GoBase SMap Regex RegexFacts RegexFacts3 ParserFacts Prop_Total GoTime Setting Strutil Timezone Language RegexWiden NumericFacts NumTranslate TextRename TextFront TextActs TextParse TextForms TextValues TextFast EnglishForms TextQuick.

(** ** Specification *)
(** languages, by their codes *)
Definition word_languages : list string :=
  ["af"; "agq"; "ak"; "asa"; "ast"; "az"; "bas"; "bem"; "bez"; "bm"; "br"; "bs"; "ca"; "cgg"; "cs"; "cy"; "da"; "dav"; "de"; "dje";
   "dsb"; "dua"; "dyo"; "ebu"; "ee"; "en"; "eo"; "es"; "et"; "eu"; "ewo"; "ff"; "fi"; "fil"; "fo"; "fr"; "fur"; "fy"; "ga"; "gd";
   "gl"; "gsw"; "guz"; "gv"; "ha"; "hr"; "hsb"; "hu"; "id"; "ig"; "is"; "it"; "jmc"; "kab"; "kam"; "kea"; "khq"; "ki"; "kl"; "kln";
   "ksb"; "ksh"; "kw"; "lag"; "lb"; "lkt"; "ln"; "lt"; "lu"; "luo"; "lv"; "mas"; "mer"; "mfe"; "mg"; "mgh"; "ms"; "mt"; "mua"; "naq";
   "nb"; "nd"; "nl"; "nn"; "nus"; "nyn"; "om"; "pl"; "pt"; "qu"; "rm"; "rn"; "ro"; "rw"; "rwk"; "saq"; "sbp"; "se"; "seh"; "ses";
   "sk"; "sl"; "smn"; "sn"; "so"; "sq"; "sv"; "sw"; "teo"; "to"; "tr"; "twq"; "tzm"; "uz"; "vun"; "wae"; "xog"; "yo"; "zu"]%string.
(** words that mean the name of a month and are not read so *)
Definition odd_words : list (string * string) := [("bm", "now"); ("dsb", "now"); ("hsb", "now"); ("fr", "sept")]%string.
(** [w], in any case, is a word in ASCII letters and signs (no digits) that the dictionary of the language translates to the name of month [m] and nothing else *)
Definition month_word (ld : locale) (w : str) (m : Z) : Prop :=
  lower_word (map lowerA w) = true /\ exists x, In (m, x) english_months /\ mget (ld_trans ld) (map lowerA w) = Some [lit x].
(** a day, the month and a year, as in "12 februarie 2024" *)
Definition dmy_form : list piece := [TheDay; Text " "; TheMonth; Text " "; TheYear]%string.

(** ** Checks *)
(** the date orders in the tables of these languages; a dot at the end means nothing *)
Definition usual_orders : list string := orders ++ ["DMY."; "YMD."]%string.
Definition month_index (v : str) : option Z := match List.find (fun x => eqs v (lit (snd x))) english_months with Some x => Some (fst x) | None => None end.
Definition word_entry (p : str * list str) : option Z := match snd p with [v] => if lower_word (fst p) then month_index v else None | _ => None end.
Definition dmy (td w : str) : str := td ++ 32 :: w ++ 32 :: lit "3456".
(** the shapes of these words *)
Definition word_shapes : list str := Eval vm_compute in map lit
  ["aaaaaaaaa"; "aaaaaaaa"; "aaaaaaa"; "aaaaa"; "aaa"; "a-a"; "aaaaaa"; "aaaa";
   "aa aaaaaaaaa"; "aa aaaaaaa"; "a'aaaaaaa"; "aa aaaaaa"; "a'aaaaaa"; "aa aaaaa"; "a'aaaaa"; "aa aaaa";
   "aaaaa aa aaaa"; "aa aaaaaa aaa aaaa aa aaaaa"; "aa aaaaaa aaa aaaa aa aaaa"; "aa aaaaaa aaa aaaaaa"; "aa aaaaaa aaa aaaaa"; "aa aaaaaa aaa aaaa"; "a'aaa"; "aa";
   "aa aaaaaaaa"; "aa aaa"; "a'aa"; "aaaaaaaaa aa aaaaa"; "aaaaaaaaaaaa"; "aaaaaaaaaaa"; "aaaaaaaaaa"; "aaaa aaaa aaaaa aa aaaaaa";
   "aaaa aaaa aaaaa aa aaa"; "aaaa aaaa aaaaaaaaa"; "aaaa aaaa aaaaaaaa"; "aaaa aaaa aaaaaa"; "aaaa aaaa aaaaa"; "aaaa aaaa aaaa"; "aaaaa aa aaaaa aa aaaaa"; "aaaaa aa aaaaa aa aaaa";
   "aaaaa aa aaaaaaaaa"; "aaaaa aa aaaaaaaa"; "aaaaa aa aaaaaaa"; "aaaaa aa aaaaaa"; "aaaaa aa aaaaa"; "aaaaaaaa aaaaaaa"; "aaaa aaaaaaa"; "aaaa aaaaaaaaaaa";
   "aaaa aaaaaaaaa"; "aaaa a-aaaaaaa"; "aa aaaaaaaaaa"; "aaaa aaaaaaaa"; "aa a-aaaaaaa"; "aa a-aaaaaa"; "aaaa aaaaaa"; "aaaa aaaaa";
   "aaaaaaaaa-aaaaa"; "aaa aa aaaaaaa"; "aaaaaa-aaaaaa"; "aaaa-aaaaaa"; "aaa aaaaaa"; "a-aaaaaaa"; "a-aaaaaa"; "a-aaaaa";
   "a-aaaa"; "a"; "aaaa aa aaaaa aa aaaa"; "aaaa aa aaaaa aa aaa"; "aaaa aa aaaaaaaaa"; "aaaa aa aaaaaaa"; "aaaa aa aaaaaa"; "aaaa aa aaaaa";
   "aaaa aa aaaa"; "aaaaaaaaa aaaa aaaa'"; "aaaaaaaaa aa aaaa"; "aa'aaaaaaa"; "aa'aaaaaa"; "aaa aaaaaaaaa"; "aaa aaaaaaaa"; "aaa aaaaaaa";
   "aaa aaaaa"; "aaa aaa"; "aaa aa"; "aaaaaaaaa-aaaaa aa"; "aaaaaaaaaa aa"; "aaaaaaaa aa"; "aaaaa aa aaaa aa aaaaaa"; "aaa aaa aaaa aa aaaaa";
   "aaa aaa aa aaaaaa"; "aaa aaa aaaaaaa"; "aaa aaa aaa'aaa"; "aaa aaa aaaaaa"; "aaa aaa aaaaa"; "aaa aaa aaaa"; "aaaaaaaaaaaa aaaaaaa"; "aaaaaaaaaaa aaaaaaa";
   "aaaaa aa aaaa aa aaa'aa"; "aaaaa aa aaaa aa aaaa"; "aaa aaaa"; "aaaaaa aaaaa"; "aaaaa aaaaa"; "aaaaaaa'a"; "aaaa aa aaaaa aaaaa"; "aaaa aa aaaaa aaa";
   "aaaa aa aaa'aaa"; "aaaa aa aaa"; "aaaaaaaa aaaaaa"; "aaaaaaaaaaaaaa"; "aaaaa aaaa aaa aaaaaaa"; "aaaaa aaa aaa aaaaaaa"; "aaaaa aaaaaaaaa"; "aaaaa aaaaaaaa";
   "aaaaa aaaaaaa"; "aaaaa aaaaaa"; "aaaaaa'aaaa'aa"; "aaaaa'aa"; "aaaaaa'"; "'aaaaaaa"; "'aaaaaa"; "aa'aaa";
   "'aaa"; "aa'a"]%string.
Definition words_ok (ld : locale) (ex : list str) : bool :=
  if quick_blind ld then if quick_mixed ld then if mem (ld_order ld) (map lit usual_orders) then
    (fun ws => forallb (fun p => match word_entry p with
      | Some m => if mem (fst p) (lit "t" :: ex) then mem (fst p) ex else if mem (map sh (fst p)) word_shapes then forallb (fun td => quick_text ws ld [fst p] (dmy td (fst p)) (dmy td (full_month m))) day_forms else false
      | None => true end) (ld_trans ld)) (qwidened_simpl ld)
  else false else false else false.
Definition odd_of (code : str) : list str := flat_map (fun p => if eqs code (lit (fst p)) then [lit (snd p)] else []) odd_words.
Definition entry_ok (p : str * locale) : bool := if existsb (fun c => eqs (fst p) (lit c)) word_languages then words_ok (snd p) (odd_of (fst p)) else true.

Lemma shapes_front : (fun fw => forallb (fun x => forallb (fun td => forallb (fun r => negb (match_string uni_min r (map sh (dmy td x)))) fw) day_forms) word_shapes) (map (widened sh) front_patterns) = true.
Proof. vm_compute. reflexivity. Qed.
Lemma english_quiet : forallb (fun m => forallb (fun td => quiet (dmy td (full_month (fst m))) && actions_eqb (actions emin (dmy td (full_month (fst m)))) (taken dmy_form td (full_month (fst m)) (lit "3456") (full_weekday 0) [])) day_forms) english_months = true.
Proof. vm_compute. reflexivity. Qed.
Lemma dmy_fill td w : fill dmy_form td w (lit "3456") (lit "sunday") [] = dmy td w.
Proof. unfold fill, dmy_form, dmy. cbn [flat_map put]. rewrite !app_nil_r. reflexivity. Qed.
Lemma sh_dmy td x y : map sh x = map sh y -> map sh (dmy td x) = map sh (dmy td y).
Proof. intros H. unfold dmy. rewrite !map_app. cbn [map]. rewrite !map_app. now rewrite H. Qed.
Lemma sh_sh x : map sh (map sh x) = map sh x.
Proof.
  rewrite map_map. apply map_ext. intros c. unfold sh. destruct (is_digitA c) eqn:D; [reflexivity|]. destruct (is_alphaA c) eqn:A; [reflexivity|]. now rewrite D, A.
Qed.
Lemma month_index_ok x m : In (m, x) english_months -> month_index (lit x) = Some m.
Proof.
  intros H. assert (F : forallb (fun p => match month_index (lit (snd p)) with Some k => k =? fst p | None => false end) english_months = true) by (vm_compute; reflexivity).
  rewrite forallb_forall in F. specialize (F _ H). cbn [fst snd] in F. destruct (month_index (lit x)) as [k|]; [|discriminate F]. apply Z.eqb_eq in F. now subst.
Qed.
(** what the check of a language says of each of its words *)
Lemma words_ok_spec ld ex w m td : words_ok ld ex = true -> month_word ld w m -> ~ In (map lowerA w) ex -> In td day_forms ->
  blind ld = true /\ In (ld_order ld) (map lit usual_orders) /\ map lowerA w <> lit "t" /\
  ok_text (widened_simpl ld) ld [map lowerA w] (fill dmy_form td (map lowerA w) (lit "3456") (lit "sunday") []) (taken dmy_form td (full_month m) (lit "3456") (full_weekday 0) []) = true.
Proof.
  intros HW (LW & x & IM & GM) NE ID. unfold words_ok in HW. destruct (quick_blind ld) eqn:QB; [|discriminate HW]. destruct (quick_mixed ld) eqn:QM; [|discriminate HW]. destruct (mem (ld_order ld) _) eqn:MO; [|discriminate HW]. cbv beta in HW.
  split; [now apply quick_blind_ok|]. split; [now apply mem_In in MO|]. rewrite qwidened_simpl_eq in HW. set (v := map lowerA w) in *. clearbody v. rewrite forallb_forall in HW. apply mget_In in GM. specialize (HW _ GM).
  unfold word_entry in HW. cbn [fst snd] in HW. rewrite LW, (month_index_ok x m IM) in HW. assert (NT : mem v ex = false) by (destruct (mem v ex) eqn:EX; [apply mem_In in EX; contradiction|reflexivity]). destruct (mem v (lit "t" :: ex)) eqn:EX; [rewrite NT in HW; discriminate HW|]. assert (v <> lit "t") as VT by (intros X; assert (mem v (lit "t" :: ex) = true) by (apply mem_In; left; now symmetry); congruence). split; [exact VT|]. destruct (mem (map sh v) word_shapes) eqn:SH; [|discriminate HW]. apply mem_In in SH. rewrite forallb_forall in HW. specialize (HW td ID).
  pose proof english_quiet as EQ. rewrite forallb_forall in EQ. specialize (EQ _ IM). rewrite forallb_forall in EQ. specialize (EQ td ID). cbn [fst] in EQ. apply andb_true_iff in EQ as [EQ1 EQ2]. apply actions_eqb_eq in EQ2.
  rewrite dmy_fill. refine (quick_text_ok ld [v] (dmy td v) (dmy td (full_month m)) _ QM HW _ EQ1 EQ2).
  pose proof shapes_front as SF. cbv beta in SF. rewrite forallb_forall in SF. specialize (SF _ SH). rewrite forallb_forall in SF. specialize (SF td ID). rewrite forallb_map_ in SF. rewrite forallb_forall in SF. apply forallb_forall. intros r HR. specialize (SF r HR). unfold shapeless. rewrite (sh_dmy td v (map sh v)) by (symmetry; apply sh_sh). exact SF.
Qed.
