(** Goroutines sharing a Parser: the mutex and the accesses to the fields of the Parser in parser.go and search.go *)
From Verif Require Import GoBase SMap Regex GoTime Setting Strutil Env Formatted Language Parser Search.

(** ** What one goroutine does next. The methods of Parser touch the shared fields ParserTypes, usedLocales (with its tracker) and
    uniqueCharsets; everything else is computed on local values. *)
Inductive act (R : Type) : Type :=
| Ret (r : R)                                          (* the goroutine has ended with this result *)
| Acquire (k : act R)                                  (* p.Lock() *)
| Release (k : act R)                                  (* p.Unlock() *)
| LoadTypes (k : list Z -> act R)
| LoadUsed (k : list locale -> act R)
| LoadCharsets (k : option (smap (list Z)) -> act R)
| StoreTypes (t : list Z) (k : act R)
| StoreUsed (u : list locale) (k : act R)
| StoreCharsets (c : smap (list Z)) (k : act R).
Arguments Ret {R}. Arguments Acquire {R}. Arguments Release {R}. Arguments LoadTypes {R}. Arguments LoadUsed {R}. Arguments LoadCharsets {R}.
Arguments StoreTypes {R}. Arguments StoreUsed {R}. Arguments StoreCharsets {R}.

(** the Parser: its mutex (who holds it), its fields, and the goroutines *)
Record conf (R : Type) := { cf_lock : option nat; cf_st : pstate; cf_thr : nat -> act R }.
Arguments cf_lock {R}. Arguments cf_st {R}. Arguments cf_thr {R}.
Definition upd {A} (f : nat -> A) (i : nat) (x : A) : nat -> A := fun j => if Nat.eqb i j then x else f j.
(** One step of goroutine [i]; None if it cannot move: it has ended, or waits for the mutex. The accesses are sequentially consistent. *)
Definition step_of {R} (c : conf R) (i : nat) : option (conf R) :=
  let go st k := Some {| cf_lock := cf_lock c; cf_st := st; cf_thr := upd (cf_thr c) i k |} in
  match cf_thr c i with
  | Ret _ => None
  | Acquire k => match cf_lock c with
                 | None => Some {| cf_lock := Some i; cf_st := cf_st c; cf_thr := upd (cf_thr c) i k |}
                 | Some _ => None
                 end
  | Release k => Some {| cf_lock := None; cf_st := cf_st c; cf_thr := upd (cf_thr c) i k |}
  | LoadTypes k => go (cf_st c) (k (p_types (cf_st c)))
  | LoadUsed k => go (cf_st c) (k (p_used (cf_st c)))
  | LoadCharsets k => go (cf_st c) (k (p_charsets (cf_st c)))
  | StoreTypes t k => go (with_types (cf_st c) t) k
  | StoreUsed u k => go (with_used (cf_st c) u) k
  | StoreCharsets m k => go (with_charsets (cf_st c) m) k
  end.
(** a schedule: which goroutine moves next; every list of numbers is tried, moves that are not possible are skipped *)
Definition sched {R} (c : conf R) (l : list nat) : conf R :=
  fold_left (fun c i => match step_of c i with Some c' => c' | None => c end) l c.

Section M.
Variable D : langdb.
Variable det : option (str -> list str).
Variable R : Type.

(** ** Parser.Parse (parser.go:69-166), followed by [K] on its result. The reads of usedLocales are those of checkPreviousLocales
    (parser.go:222-229, 281-291) and saveUsedLocale (:156, 293-302), only with TryPreviousLocales. *)
Definition parse_body (E : env) (cfg0 : uconfig) (s0 : str) (formats : list str) (K : res ret -> act R) : act R :=
  LoadTypes (fun types0 =>
  if existsb (fun t => TNoSpaces <? t) types0 then Release (K (Ok (zero_date, Some EParserType)))
  else
    LoadTypes (fun types1 =>
    let rest :=
      let cfg := initiate (e_now E) cfg0 in
      if negb (validate (e_uni E) cfg) then Release (K (Ok (zero_date, Some EConfig)))
      else
        let icfg := to_internal cfg in
        let dt := formatted_parse E icfg s0 formats in
        if negb (date_is_zero dt) then Release (K (Ok (dt, None)))
        else
          let s := sanitize_date (e_uni E) s0 in
          let locales used :=
            match get_applicable E D det used cfg icfg s with
            | Panic => Release (K Panic)
            | Err e => Release (K (Ok (zero_date, Some e)))
            | Ok lds =>
              LoadTypes (fun types =>
              match try_locales E cfg icfg types s formats lds with
              | Panic => Release (K Panic)
              | Err e => Release (K (Ok (zero_date, Some e)))
              | Ok None => Release (K (Ok (zero_date, Some ENoParse)))
              | Ok (Some (ld, dt)) =>
                let final := Release (K (Ok (with_locale dt (ld_name ld), None))) in
                if u_try_prev cfg then LoadUsed (fun used => StoreUsed (save_used used ld) final) else final
              end)
            end in
          if u_try_prev cfg then LoadUsed locales else locales [] in
    match types1 with [] => StoreTypes default_types rest | _ => rest end)).

(** initUniqueCharsets (search.go:133-154): the map is compared with the languages and replaced if it does not fit *)
Definition init_body (languages : list str) (K : act R) : act R :=
  LoadCharsets (fun c0 =>
  let cur := match c0 with Some m => m | None => [] end in
  if negb (Nat.eqb (length cur) (length languages)) || existsb (fun l => negb (mhas cur l)) languages
  then StoreCharsets (unique_charsets D languages) (Release K)
  else match c0 with Some _ => Release K | None => StoreCharsets [] (Release K) end).

(** ** A client: a goroutine that calls the methods, each call depending on the results so far *)
Inductive client : Type :=
| CRet (r : R)
| CParse (E : env) (cfg : uconfig) (s : str) (formats : list str) (k : res ret -> client)
| CInit (languages : list str) (k : client)
| CCharsets (k : option (smap (list Z)) -> client).   (* p.uniqueCharsets read without the mutex, as Search does (search.go:68) *)
Fixpoint impl (t : client) : act R :=
  match t with
  | CRet r => Ret r
  | CParse E cfg s fs k => Acquire (parse_body E cfg s fs (fun r => impl (k r)))
  | CInit ls k => Acquire (init_body ls (impl k))
  | CCharsets k => LoadCharsets (fun c => impl (k c))
  end.
(** the same client when every method call happens at once: one call of client [i] *)
Definition atomic (p : pstate) (T : nat -> client) (i : nat) : pstate * (nat -> client) :=
  match T i with
  | CRet _ => (p, T)
  | CParse E cfg s fs k => let r := parse E D det p cfg s fs in (fst r, upd T i (k (snd r)))
  | CInit ls k => (init_charsets D p ls, upd T i k)
  | CCharsets k => (p, upd T i (k (p_charsets p)))
  end.
Definition atomics (p : pstate) (T : nat -> client) (l : list nat) : pstate * (nat -> client) :=
  fold_left (fun x i => atomic (fst x) (snd x) i) l (p, T).
(** a client alone *)
Fixpoint alone (t : client) (p : pstate) : pstate * R :=
  match t with
  | CRet r => (p, r)
  | CParse E cfg s fs k => let r := parse E D det p cfg s fs in alone (k (snd r)) (fst r)
  | CInit ls k => alone k (init_charsets D p ls)
  | CCharsets k => alone (k (p_charsets p)) p
  end.
End M.
Arguments CRet {R}. Arguments CParse {R}. Arguments CInit {R}. Arguments CCharsets {R}.

(** ** The searches as clients (search.go:48-264), see Search.v for the functions they call *)
Section S.
Variable E : env.
Variable D : langdb.
Variable det : option (str -> list str).
Context {A : Type}.
Notation prog := (client (res A)).

Definition c_parse_date (cfg : uconfig) (entry : str) (K : date -> prog) : prog :=
  CParse E cfg entry [] (fun r => match r with Ok (d, _) => K d | Err e => CRet (Err e) | Panic => CRet Panic end).
(** parseEntry (search.go:234-264) *)
Definition c_entry (icfg : config) (entry translation : str) (parsed : list parsed_search) (need_base : bool)
  (K : config -> parsed_search -> prog) : prog :=
  let entry := clean_entry entry in
  let cfg := of_internal icfg in
  c_parse_date cfg entry (fun d =>
  let base := if need_base then relative_base parsed else zero_time in
  if is_zero base then K icfg (d, is_relative_text translation)
  else c_parse_date (with_unow cfg base) entry (fun d => K (with_now icfg base) (d, is_relative_text translation))).
(** search.go:191-210 *)
Fixpoint c_split (need_base : bool) (parts : list (str * str)) (icfg : config) (acc : list (parsed_search * str))
  (K : config -> list (parsed_search * str) -> prog) : prog :=
  match parts with
  | [] => K icfg acc
  | (e, o) :: r =>
    if Nat.leb (rune_count e) 2 then c_split need_base r icfg acc K
    else c_entry icfg e e (map fst acc) need_base (fun icfg ps => c_split need_base r icfg (acc ++ [(ps, trim_chars o (lit " .,:()[]-"))]) K)
  end.
Fixpoint c_splits (need_base : bool) (sps : list split_result) (icfg : config) (K : config -> list (list (parsed_search * str)) -> prog) : prog :=
  match sps with
  | [] => K icfg []
  | sp :: r => c_split need_base (combine (sp_entry sp) (sp_orig sp)) icfg [] (fun icfg c => c_splits need_base r icfg (fun icfg cs => K icfg (c :: cs)))
  end.
(** parseFoundObjects (search.go:156-232) *)
Fixpoint c_found (need_base : bool) (l : list (str * str * str)) (icfg : config) (acc : list (parsed_search * str))
  (K : list (parsed_search * str) -> prog) : prog :=
  match l with
  | [] => K acc
  | (entry, translation, original) :: r =>
    if Nat.leb (rune_count entry) 2 then c_found need_base r icfg acc K
    else c_entry icfg entry translation (map fst acc) need_base (fun icfg ps =>
      if negb (date_is_zero (fst ps)) then c_found need_base r icfg (acc ++ [(ps, trim_chars original (lit " .,:()[]-'"))]) K
      else match split_if_not_parsed entry original with
      | [] => c_found need_base r icfg acc K
      | sps => c_splits need_base sps icfg (fun icfg cands =>
          c_found need_base r icfg (acc ++ filter (fun x => negb (date_is_zero (fst (fst x)))) (choose_best_split E cands)) K)
      end)
  end.
(** SearchWithLanguage (search.go:78-111) *)
Definition c_swl (cfg0 : uconfig) (lang text : str) (K : list search_result * option goerr -> prog) : prog :=
  match init_search_config E cfg0 with
  | None => K ([], Some EConfig)
  | Some cfg =>
    let icfg := to_internal cfg in
    match db_get D lang with
    | None => K ([], Some EUnknownLang)
    | Some ld =>
      match translate_search E icfg ld text with
      | Panic => CRet Panic
      | Err e => CRet (Err e)
      | Ok (translation, original) =>
        let use_translation := (negb (eqs lang (lit "vi")) && negb (eqs lang (lit "hu"))) || eqs (ld_name ld) (lit "en") in
        let entries := if use_translation then translation else original in
        c_found (is_zero (c_now icfg)) (combine (combine entries translation) original) icfg [] (fun found =>
        K (map (fun x => {| sr_date := with_locale (fst (fst x)) lang; sr_text := snd x |}) found, None))
      end
    end
  end.
(** Search (search.go:48-76) *)
Definition c_search (cfg0 : uconfig) (text : str) (K : str * list search_result * option goerr -> prog) : prog :=
  match init_search_config E cfg0 with
  | None => K ([], [], Some EConfig)
  | Some cfg =>
    let cfgl := match u_languages cfg, det with [], Some f => f text | l, _ => l end in
    match get_languages E D (u_locales cfg) cfgl (u_given_order cfg) with
    | Panic => CRet Panic
    | Err e => K ([], [], Some e)
    | Ok languages =>
      CInit languages (CCharsets (fun uc =>
      match detect_language E D (to_internal cfg) text languages (match uc with Some m => m | None => [] end) with
      | Panic => CRet Panic
      | Err e => K ([], [], Some e)
      | Ok lang => c_swl cfg lang text (fun r => K (lang, fst r, snd r))
      end))
    end
  end.
End S.
