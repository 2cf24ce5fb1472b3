(** The global text normaliser (internal/strutil/strutil.go:16-17 unicodeTransformer) as a shared mutable object, with any number of Parsers and
    goroutines. Concurrency.v treats NormalizeUnicode as a function; here every use of it is a sequence of accesses to the one object
    [transform.Chain(norm.NFKD, runes.Remove(runes.In(unicode.Mn)), norm.NFKC)] that all goroutines of the program share.
    golang.org/x/text v0.14 transform/transform.go: a chain holds, for each of its links, a buffer with the bytes that wait to be transformed,
    and at its end the buffer of the caller with the number of bytes written (type chain, type link). Transform (called by transform.String)
    stores the text and the caller's buffer in the chain, runs the links one after the other and returns the number of bytes written; Reset empties the
    buffers. Simplification: the buffers are unbounded (x/text uses 128 and 4096 bytes and then repeats the round), and each of these accesses is one
    step (it is several machine instructions). *)
From Verif Require Import GoBase SMap Regex GoTime Setting Strutil Digit Env Formatted Language Absolute JalaliData Calendars Parser Search Concurrency.

(** ** What a goroutine does: the accesses of Concurrency.v, each to a numbered Parser, and uses of the normaliser *)
Inductive nact (R : Type) : Type :=
| NRet (r : R)
| NAcquire (q : nat) (k : nact R)
| NRelease (q : nat) (k : nact R)
| NLoadTypes (q : nat) (k : list Z -> nact R)
| NLoadUsed (q : nat) (k : list locale -> nact R)
| NLoadCharsets (q : nat) (k : option (smap (list Z)) -> nact R)
| NStoreTypes (q : nat) (t : list Z) (k : nact R)
| NStoreUsed (q : nat) (u : list locale) (k : nact R)
| NStoreCharsets (q : nat) (c : smap (list Z)) (k : nact R)
| NChain (s : str) (k : str -> nact R).                (* transform.String(unicodeTransformer, s), strutil.go:61 *)
Arguments NRet {R}. Arguments NAcquire {R}. Arguments NRelease {R}. Arguments NLoadTypes {R}. Arguments NLoadUsed {R}. Arguments NLoadCharsets {R}.
Arguments NStoreTypes {R}. Arguments NStoreUsed {R}. Arguments NStoreCharsets {R}. Arguments NChain {R}.

(** the chain: the bytes that wait before each link, the goroutine whose buffer is stored as the destination, the number of bytes written there; and
    the destination buffers of the goroutines *)
Record chain := { ch_wait : list str; ch_owner : nat; ch_written : nat; ch_dst : nat -> str }.
(** where a goroutine is inside transform.String *)
Inductive phase := Setup (s : str) | Link (j : nat) | Return.
Inductive thread (R : Type) : Type :=
| Run (a : nact R)
| Inside (ph : phase) (k : str -> nact R).
Arguments Run {R}. Arguments Inside {R}.
Record world (R : Type) := { w_lock : nat -> option nat; w_st : nat -> pstate; w_chain : chain; w_thr : nat -> thread R }.
Arguments w_lock {R}. Arguments w_st {R}. Arguments w_chain {R}. Arguments w_thr {R}.

Fixpoint set_nth (l : list str) (j : nat) (x : str) : list str :=
  match l, j with [], _ => [] | _ :: r, O => x :: r | y :: r, S j => y :: set_nth r j x end.
(** the first n bytes of a buffer that is filled with zero bytes *)
Definition prefix0 (n : nat) (b : str) : str := firstn n b ++ repeat 0 (n - length b).

Section Machine.
(** the links of the chain: NFKD, removal of the marks, NFKC *)
Variable links : list (str -> str).
Context {R : Type}.

(** Reset (transform.go, chain.Reset): no bytes wait *)
Definition ch_reset (c : chain) : chain :=
  {| ch_wait := map (fun _ => []) links; ch_owner := ch_owner c; ch_written := ch_written c; ch_dst := ch_dst c |}.
(** the head of chain.Transform: source and destination are stored in the chain; the destination is a fresh buffer of the caller *)
Definition ch_setup (c : chain) (i : nat) (s : str) : chain :=
  {| ch_wait := set_nth (ch_wait c) 0 s; ch_owner := i; ch_written := 0; ch_dst := upd (ch_dst c) i [] |}.
(** one round of the loop of chain.Transform: link j takes what waits before it and writes behind what waits before the next one, or into the destination *)
Definition ch_link (c : chain) (j : nat) : chain :=
  match nth_error links j with
  | None => c
  | Some f =>
    let out := f (nth j (ch_wait c) []) in
    let wait := set_nth (ch_wait c) j [] in
    if Nat.eqb (S j) (length links)
    then {| ch_wait := wait; ch_owner := ch_owner c; ch_written := ch_written c + length out;
            ch_dst := upd (ch_dst c) (ch_owner c) (prefix0 (ch_written c) (ch_dst c (ch_owner c)) ++ out) |}
    else {| ch_wait := set_nth wait (S j) (nth (S j) wait [] ++ out); ch_owner := ch_owner c; ch_written := ch_written c; ch_dst := ch_dst c |}
  end.
(** the result: as many bytes of the caller's own buffer as the chain says *)
Definition ch_result (c : chain) (i : nat) : str := prefix0 (ch_written c) (ch_dst c i).

(** One step of goroutine [i]; None if it has ended or waits for a mutex *)
Definition nstep (w : world R) (i : nat) : option (world R) :=
  let put lk st ch t := Some {| w_lock := lk; w_st := st; w_chain := ch; w_thr := upd (w_thr w) i t |} in
  let go t := put (w_lock w) (w_st w) (w_chain w) t in
  let store q x t := put (w_lock w) (upd (w_st w) q x) (w_chain w) t in
  let chn ch t := put (w_lock w) (w_st w) ch t in
  match w_thr w i with
  | Run a =>
    match a with
    | NRet _ => None
    | NAcquire q k => match w_lock w q with None => put (upd (w_lock w) q (Some i)) (w_st w) (w_chain w) (Run k) | Some _ => None end
    | NRelease q k => put (upd (w_lock w) q None) (w_st w) (w_chain w) (Run k)
    | NLoadTypes q k => go (Run (k (p_types (w_st w q))))
    | NLoadUsed q k => go (Run (k (p_used (w_st w q))))
    | NLoadCharsets q k => go (Run (k (p_charsets (w_st w q))))
    | NStoreTypes q t k => store q (with_types (w_st w q) t) (Run k)
    | NStoreUsed q u k => store q (with_used (w_st w q) u) (Run k)
    | NStoreCharsets q c k => store q (with_charsets (w_st w q) c) (Run k)
    | NChain s k => chn (ch_reset (w_chain w)) (Inside (Setup s) k)
    end
  | Inside (Setup s) k => chn (ch_setup (w_chain w) i s) (Inside (Link 0) k)
  | Inside (Link j) k => chn (ch_link (w_chain w) j) (Inside (if Nat.eqb (S j) (length links) then Return else Link (S j)) k)
  | Inside Return k => go (Run (k (ch_result (w_chain w) i)))
  end.
Definition nsched (w : world R) (l : list nat) : world R :=
  fold_left (fun w i => match nstep w i with Some w' => w' | None => w end) l w.
(** the beginning: nobody holds a mutex; the chain may be in any state *)
Definition nstart (ps : nat -> pstate) (ch : chain) (T : nat -> nact R) : world R :=
  {| w_lock := fun _ => None; w_st := ps; w_chain := ch; w_thr := fun j => Run (T j) |}.
End Machine.

(** ** The methods, with every use of the normaliser *)
Section P.
Variable E : env.
Variable D : langdb.
Variable det : option (str -> list str).
Context {R : Type}.
Notation U := (e_uni E).
Notation prog := (nact R).

(** NormalizeString (strutil.go:92-97) *)
Definition n_string (s : str) (K : str -> prog) : prog := NChain s (fun n => K (sanitize_spaces (to_lower U n))).
(** NormalizeString and digit.NormalizeString (translate.go:19-20, applicable-check.go:26-27, translate-search.go:112-116) *)
Definition n_token (s : str) (K : str -> prog) : prog := n_string s (fun n => K (digit_normalize U n)).
(** Translate (translate.go:14-94) *)
Definition n_translate (cfg : config) (ld : locale) (s : str) (keep : bool) (K : res (list str) -> prog) : prog :=
  let skipped := skipped_tokens cfg ld in
  n_token s (fun t => K (
  do tokens <- lsplit E ld (simplify E ld t) keep skipped ;
  do perms <- create_permutation [] (map (translate_token E ld skipped keep) tokens) ;
  Ok (map (finish_translation keep) perms))).
(** IsApplicable (applicable-check.go:16-64), never with stripTimezone in Parse *)
Definition n_applicable (cfg : config) (ld : locale) (s : str) (K : res bool -> prog) : prog :=
  let skipped := skipped_tokens cfg ld in
  n_token s (fun t => K (
  do tokens <- lsplit E ld (simplify E ld t) false skipped ;
  Ok (if forallb (fun t => mem t always_kept) tokens then false else forallb (token_known E ld skipped) tokens))).
(** parser.go:254-260, :282-288 *)
Fixpoint n_any_applicable (icfg : config) (ld : locale) (dss : list str) (K : res bool -> prog) : prog :=
  match dss with
  | [] => K (Ok false)
  | ds :: r => n_applicable icfg ld ds (fun x => match x with
      | Ok b => if b then K (Ok true) else n_any_applicable icfg ld r K
      | Err e => K (Err e) | Panic => K Panic end)
  end.
(** checkPreviousLocales (parser.go:281-291) *)
Fixpoint n_check_previous (icfg : config) (used : list locale) (dss : list str) (K : res (option locale) -> prog) : prog :=
  match used with
  | [] => K (Ok None)
  | ld :: r => n_any_applicable icfg ld dss (fun x => match x with
      | Ok b => if b then K (Ok (Some ld)) else n_check_previous icfg r dss K
      | Err e => K (Err e) | Panic => K Panic end)
  end.
(** parser.go:247-267 *)
Fixpoint n_filter_applicable (icfg : config) (dss : list str) (acc : list locale) (lds : list locale) (K : res (list locale) -> prog) : prog :=
  match lds with
  | [] => K (Ok acc)
  | ld :: r =>
    if mem (ld_name ld) (map ld_name acc) then n_filter_applicable icfg dss acc r K
    else n_any_applicable icfg ld dss (fun x => match x with
      | Ok b => n_filter_applicable icfg dss (if b then acc ++ [ld] else acc) r K
      | Err e => K (Err e) | Panic => K Panic end)
  end.
(** getApplicableLocales (parser.go:214-279) *)
Definition n_get_applicable (used : list locale) (cfg : uconfig) (icfg : config) (s : str) (K : res (list locale) -> prog) : prog :=
  n_string s (fun s =>
  let popped := fst (etz_pop E s) in
  let dss := if eqs popped s then [s] else [s; popped] in
  let go prev :=
    match prev with
    | Panic => K Panic
    | Err e => K (Err e)
    | Ok prev =>
      let results := match prev with Some ld => [ld] | None => [] end in
      match match get_locales E D (u_locales cfg) (detected_languages det cfg s) (u_region cfg) (u_given_order cfg) false with
            | Err ENotFound => Ok []
            | r => r
            end with
      | Panic => K Panic
      | Err e => K (Err e)
      | Ok lds =>
        n_filter_applicable icfg dss results lds (fun x => K (
        do results <- x ;
        match c_deflang icfg with
        | [] => Ok results
        | _ =>
          do dl <- match get_locales E D [] (u_deflang cfg) (u_region cfg) (u_given_order cfg) false with
                   | Err _ => Ok []
                   | r => r
                   end ;
          Ok (results ++ filter (fun ld => negb (mem (ld_name ld) (map ld_name results))) dl)
        end))
      end
    end in
  if u_try_prev cfg then n_check_previous icfg used dss go else go (Ok None)).
(** one locale (parser.go:119-161) *)
Definition n_try_locale (cfg : uconfig) (icfg : config) (types : list Z) (s : str) (formats : list str) (ld : locale) (K : res date -> prog) : prog :=
  let lcfg := with_order (clone icfg) (order_for E cfg ld) in
  n_translate lcfg ld s false (fun x => match x with
  | Panic => K Panic
  | Err e => K (Err e)
  | Ok trs => n_translate lcfg ld s true (fun y => K (
    do trsf <- y ;
    first_date (try_type E lcfg s trs trsf formats) types))
  end).
(** parser.go:117-162 *)
Fixpoint n_try_locales (cfg : uconfig) (icfg : config) (types : list Z) (s : str) (formats : list str) (lds : list locale)
  (K : res (option (locale * date)) -> prog) : prog :=
  match lds with
  | [] => K (Ok None)
  | ld :: r => n_try_locale cfg icfg types s formats ld (fun x => match x with
      | Ok dt => if date_is_zero dt then n_try_locales cfg icfg types s formats r K else K (Ok (Some (ld, dt)))
      | Err e => K (Err e) | Panic => K Panic end)
  end.

(** Parser.Parse (parser.go:69-166) of Parser [q] after Lock, see Concurrency.parse_body *)
Definition n_parse_body (q : nat) (cfg0 : uconfig) (s0 : str) (formats : list str) (K : res ret -> prog) : prog :=
  NLoadTypes q (fun types0 =>
  if existsb (fun t => TNoSpaces <? t) types0 then NRelease q (K (Ok (zero_date, Some EParserType)))
  else
    NLoadTypes q (fun types1 =>
    let rest :=
      let cfg := initiate (e_now E) cfg0 in
      if negb (validate (e_uni E) cfg) then NRelease q (K (Ok (zero_date, Some EConfig)))
      else
        let icfg := to_internal cfg in
        let dt := formatted_parse E icfg s0 formats in
        if negb (date_is_zero dt) then NRelease q (K (Ok (dt, None)))
        else
          let s := sanitize_date (e_uni E) s0 in
          let locales used :=
            n_get_applicable used cfg icfg s (fun x => match x with
            | Panic => NRelease q (K Panic)
            | Err e => NRelease q (K (Ok (zero_date, Some e)))
            | Ok lds =>
              NLoadTypes q (fun types =>
              n_try_locales cfg icfg types s formats lds (fun y => match y with
              | Panic => NRelease q (K Panic)
              | Err e => NRelease q (K (Ok (zero_date, Some e)))
              | Ok None => NRelease q (K (Ok (zero_date, Some ENoParse)))
              | Ok (Some (ld, dt)) =>
                let final := NRelease q (K (Ok (with_locale dt (ld_name ld), None))) in
                if u_try_prev cfg then NLoadUsed q (fun used => NStoreUsed q (save_used used ld) final) else final
              end))
            end) in
          if u_try_prev cfg then NLoadUsed q locales else locales [] in
    match types1 with [] => NStoreTypes q default_types rest | _ => rest end)).
(** Parse as a whole *)
Definition n_parse (q : nat) (cfg : uconfig) (s : str) (formats : list str) (K : res ret -> prog) : prog :=
  NAcquire q (n_parse_body q cfg s formats K).

(** ParseHijri (hijri-parser.go:12-38, internal/parser/hijri/parser.go:23-64), ParseJalali (jalali-parser.go:12-38, internal/parser/jalali/parser.go:17-60):
    one use of the normaliser, no mutex *)
Definition n_hijri (C : calendars) (cfg0 : uconfig) (s : str) (K : res ret -> prog) : prog :=
  let cfg := initiate (e_now E) cfg0 in
  if negb (validate U cfg) then K (Ok (zero_date, Some EConfig))
  else n_token s (fun t =>
    let t := fold_left (fun s '(latin, arabic) => replace_all s (lit arabic) (lit latin)) time_conventions t in
    let '(s, tz) := etz_pop E (strip_braces (sanitize_date U t)) in
    K (match (do d <- abs_run E (hj_hooks E C) (with_order (to_internal cfg) (calendar_order E cfg0)) s tz ; Ok (attach_tz d tz)) with
       | Ok d => Ok (d, None)
       | Err e => Ok (zero_date, Some e)
       | Panic => Panic
       end)).
Definition n_jalali (C : calendars) (cfg0 : uconfig) (s : str) (K : res ret -> prog) : prog :=
  let cfg := initiate (e_now E) cfg0 in
  if negb (validate U cfg) then K (Ok (zero_date, Some EConfig))
  else n_token s (fun t =>
    let t := remove_weekday_tr (replace_time E (replace_days E (replace_weekdays (replace_months t)))) in
    let '(s, tz) := etz_pop E (strip_braces (sanitize_date U t)) in
    K (match (do d <- abs_run E (jl_hooks E C) (with_order (to_internal cfg) (calendar_order E cfg0)) s tz ; Ok (attach_tz d tz)) with
       | Ok d => Ok (d, None)
       | Err e => Ok (zero_date, Some e)
       | Panic => Panic
       end)).

(** the loops of simplifySplitAlign (translate-search.go:129-166), see Language.align_loop: [pick t x] is the token that is normalised and [same t n x] the comparison *)
Fixpoint n_align (pick : str -> str -> str) (same : str -> str -> str -> bool) (long : list str) (i : nat) (addEmpty : bool) (short : list str)
  (K : list str -> prog) : prog :=
  match long with
  | [] => K short
  | token :: r =>
    match nth_error short i with
    | Some st => n_token (pick token st) (fun n =>
      if same token n st then n_align pick same r (S i) false short K
      else if addEmpty then n_align pick same r (S i) addEmpty (insert_slice short i []) K
      else n_align pick same r (S i) true short K)
    | None => n_align pick same r (S i) addEmpty (short ++ [[]]) K
    end
  end.
(** simplifySplitAlign (translate-search.go:105-173) *)
Definition n_split_align (ld : locale) (s : str) (skipped : list str) (K : res (list str * list str) -> prog) : prog :=
  n_token s (fun t =>
  match word_split E ld (simplify E ld t) skipped with
  | Panic => K Panic
  | Err e => K (Err e)
  | Ok simp =>
    match word_split E ld s skipped with
    | Panic => K Panic
    | Err e => K (Err e)
    | Ok orig =>
      if Nat.eqb (length orig) (length simp) then K (Ok (orig, simp))
      else if Nat.ltb (length orig) (length simp) then
        n_align (fun t o => o) (fun t n o => eqs t n) simp 0 false orig (fun orig' =>
        K (Ok (balance (length orig' + length simp) orig' simp)))
      else
        n_align (fun t x => t) (fun t n x => eqs n x) orig 0 false simp (fun simp' =>
        K (Ok (balance (length orig + length simp') orig simp')))
    end
  end).
(** TranslateSearch (translate-search.go:15-103) *)
Fixpoint n_sentences (ld : locale) (skipped : list str) (l : list str) (K : res (list (list (list str * list str))) -> prog) : prog :=
  match l with
  | [] => K (Ok [])
  | sentence :: r => n_split_align ld sentence skipped (fun x =>
    match (do (orig, simp) <- x ; do done <- ts_loop E ld orig simp 0 false [] [] [] ; Ok (rev done)) with
    | Panic => K Panic
    | Err e => K (Err e)
    | Ok y => n_sentences ld skipped r (fun z => K (do ys <- z ; Ok (y :: ys)))
    end)
  end.
Definition n_translate_search (cfg : config) (ld : locale) (s : str) (K : res (list str * list str) -> prog) : prog :=
  match split_sentence E ld s with
  | Panic => K Panic
  | Err e => K (Err e)
  | Ok sentences => n_sentences ld (skipped_tokens cfg ld) sentences (fun x => K (
    do chunks <- x ;
    let l := concat chunks in
    Ok (map (fun p => join_chunk E ld (filter_chunk (clear_future_words (fst p)))) l,
        map (fun p => join_chunk E ld (filter_chunk (snd p))) l)))
  end.
End P.

(** a client of Concurrency.v on Parser [q] *)
Fixpoint n_client {R} (D : langdb) (det : option (str -> list str)) (q : nat) (t : client R) : nact R :=
  match t with
  | CRet r => NRet r
  | CParse E cfg s fs k => n_parse E D det q cfg s fs (fun r => n_client D det q (k r))
  | CInit languages k => NAcquire q (
      NLoadCharsets q (fun c0 =>
      let cur := match c0 with Some m => m | None => [] end in
      if negb (Nat.eqb (length cur) (length languages)) || existsb (fun l => negb (mhas cur l)) languages
      then NStoreCharsets q (unique_charsets D languages) (NRelease q (n_client D det q k))
      else match c0 with Some _ => NRelease q (n_client D det q k) | None => NStoreCharsets q [] (NRelease q (n_client D det q k)) end))
  | CCharsets k => NLoadCharsets q (fun c => n_client D det q (k c))
  end.
(** SearchWithLanguage (search.go:78-111) of Parser [q]: TranslateSearch runs without the mutex; the texts found are then parsed with it (see Concurrency.c_swl) *)
Definition n_swl {A} (E : env) (D : langdb) (det : option (str -> list str)) (q : nat) (cfg0 : uconfig) (lang text : str)
  (K : list search_result * option goerr -> client (res A)) : nact (res A) :=
  let client t := n_client D det q t in
  match init_search_config E cfg0 with
  | None => client (K ([], Some EConfig))
  | Some cfg =>
    let icfg := to_internal cfg in
    match db_get D lang with
    | None => client (K ([], Some EUnknownLang))
    | Some ld =>
      n_translate_search E icfg ld text (fun x => match x with
      | Panic => NRet Panic
      | Err e => NRet (Err e)
      | Ok (translation, original) =>
        let use_translation := (negb (eqs lang (lit "vi")) && negb (eqs lang (lit "hu"))) || eqs (ld_name ld) (lit "en") in
        let entries := if use_translation then translation else original in
        client (c_found E (is_zero (c_now icfg)) (combine (combine entries translation) original) icfg [] (fun found =>
        K (map (fun x => {| sr_date := with_locale (fst (fst x)) lang; sr_text := snd x |}) found, None)))
      end)
    end
  end.
