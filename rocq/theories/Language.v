(** internal/language and internal/data/00-locale-data.go *)
From Verif Require Import GoBase SMap Regex GoTime Setting Strutil Digit Timezone Env.

(** data.LocaleData (internal/data/00-locale-data.go:11-25) and data.ReplacementData (:27-30) as a pair *)
Record locale := {
  ld_name : str;
  ld_order : str;
  ld_nospacing : bool;
  ld_splitter : Z;
  ld_charset : list Z;
  ld_abbr : list str;
  ld_simpl : list (regex * str);
  ld_trans : smap (list str);
  ld_reltype : smap str;
  ld_relrx : list (regex * str);
  ld_rx : option regex;
  ld_rx_exact : option regex;
  ld_known : list str }.

(** slices.Sort (bytewise order) followed by slices.Compact *)
Definition compact_sorted (l : list str) : list str :=
  let fix go (l : list str) : list str :=
    match l with
    | [] => []
    | x :: l' => match go l' with
                 | [] => [x]
                 | y :: l2 => if eqs x y then y :: l2 else x :: y :: l2
                 end
    end in go l.
Fixpoint insert_by {A} (lt : A -> A -> bool) (x : A) (l : list A) : list A :=
  match l with
  | [] => [x]
  | y :: l' => if lt y x then y :: insert_by lt x l' else x :: l
  end.
(** sort.Slice / sort.SliceStable / slices.Sort: a stable insertion sort. sort.Slice is not stable, but every
    use of it in the repository compares with a total order on pairwise distinct (or identical) strings. *)
Definition sort_by {A} (lt : A -> A -> bool) (l : list A) : list A := fold_right (insert_by lt) [] l.

(** merge (internal/data/00-locale-data.go:32-80). The two loops over the parent's maps write each key once and
    read only that key of the child, so the iteration order does not matter (property C39). *)
Definition merge (parent child : locale) : locale :=
  {| ld_name := ld_name child;
     ld_order := ld_order child;
     ld_nospacing := ld_nospacing child;
     ld_splitter := if ld_splitter child =? 0 then ld_splitter parent else ld_splitter child;
     ld_charset := ld_charset child ++ ld_charset parent;
     ld_abbr := ld_abbr child ++ ld_abbr parent;
     ld_simpl := ld_simpl child ++ ld_simpl parent;
     ld_trans := fold_left (fun m p => mset m (fst p)
                  (compact_sorted (sort_by lts (mget_or [] m (fst p) ++ snd p)))) (ld_trans parent) (ld_trans child);
     ld_reltype := fold_left (fun m p => mset m (fst p) (snd p)) (ld_reltype parent) (ld_reltype child);
     ld_relrx := ld_relrx child ++ ld_relrx parent;
     ld_rx := match ld_rx child with Some r => Some r | None => ld_rx parent end;
     ld_rx_exact := match ld_rx_exact child with Some r => Some r | None => ld_rx_exact parent end;
     ld_known := ld_known child |}.

(** The generated tables: GetLocaleData (00-locale-data.go:82-1099), LanguageOrder (01-language-order.go, a
    bijection onto 0..n-1, here the list of languages by position) and LocaleOrder (04-locale-order.go). *)
Record langdb := {
  db_get : str -> option locale;
  db_langs : list str;
  db_order : str -> Z }.
Fixpoint pos_in (s : str) (l : list str) (i : Z) : option Z :=
  match l with [] => None | x :: l' => if eqs s x then Some i else pos_in s l' (i + 1) end.
(** data.LanguageOrder[lang] (0 when missing) *)
Definition lang_order (D : langdb) (s : str) : Z := match pos_in s (db_langs D) 0 with Some i => i | None => 0 end.

(** ** internal/language/00-constant.go *)
Definition split_separator : str := lit "|#=#=#|".                               (* :20 *)
Definition rxSpaces : regex := Eval vm_compute in rxc "\s{2,}".                   (* :24-28 *)
Definition rxKeepToken1 : regex := Eval vm_compute in rxc "^.*[^\W_].*$".
Definition rxKeepToken2 : regex := Eval vm_compute in rxc "^.*[^\P{L}\d_].*$".
Definition rxNumeral : regex := Eval vm_compute in rxc "(\d+)".
Definition rxTokenDigit : regex := Eval vm_compute in rxc "[\d\.:\-/]+".
(* :36-49 *)
Definition rxSplit1 : regex := Eval vm_compute in rxc "([^\s.]*)[\.!?;…\r\n]+(?:\s|$)*".
Definition rxSplit2 : regex := Eval vm_compute in rxc "([^\s.]*)[\.!?;…\r\n]+(\s*[¡¿]*|$)|[¡¿]+".
Definition rxSplit3 : regex := Eval vm_compute in rxc "([^\s.]*)[|!?;\r\n]+(?:\s|$)+".
Definition rxSplit4 : regex := Eval vm_compute in rxc "([^\s.]*)[。…‥\.!?？！;\r\n]+(?:\s|$)+".
Definition rxSplit5 : regex := Eval vm_compute in rxc "([^\s.]*)[\r\n]+".
Definition rxSplit6 : regex := Eval vm_compute in rxc "([^\s.]*)[\r\n؟!\.…]+(?:\s|$)+".
Definition sentence_splitter (g : Z) : regex :=
  if g =? 2 then rxSplit2 else if g =? 3 then rxSplit3 else if g =? 4 then rxSplit4
  else if g =? 5 then rxSplit5 else if g =? 6 then rxSplit6 else rxSplit1.
(* :51-55 *)
Definition dashes : list str := Eval vm_compute in [lit "-"; lit "——"; lit "—"; lit "～"].
Definition always_kept : list str := Eval vm_compute in [lit "+"; lit ":"; lit "."; lit " "; lit "-"; lit "/"].
Definition freshness_words : list str :=
  Eval vm_compute in [lit "day"; lit "week"; lit "month"; lit "year"; lit "hour"; lit "minute"; lit "second"].
Definition digit_abbr_langs : list str := Eval vm_compute in [lit "fi"; lit "cs"; lit "hu"; lit "de"; lit "da"].
Definition common_charset : list Z := Eval vm_compute in runes (lit "0123456789()\-/.,:' ").

(** ** utils.go *)
(** mapSkippedTokens (utils.go:12-23) *)
Definition skipped_tokens (cfg : config) (ld : locale) : list str :=
  if eqs (ld_name ld) (lit "fi") then filter (fun t => negb (eqs t (lit "t"))) (c_skip cfg) else c_skip cfg.

(** join (utils.go:25-44) *)
Fixpoint join_from (a : str) (tokens : list str) (sep : str) : str :=
  match tokens with
  | [] => []
  | b :: r =>
    (if negb (mem a always_kept) && negb (mem b always_kept) then sep else []) ++ b ++ join_from b r sep
  end.
Definition join (tokens : list str) (sep : str) : str :=
  match tokens with [] => [] | t :: r => trim_space (t ++ join_from t r sep) end.

(** translateWord (utils.go:46-56), isInDictionary (:58-61) *)
Definition translate_word (ld : locale) (w : str) : option (list str) :=
  match mget (ld_reltype ld) w with
  | Some t => Some [t]
  | None => mget (ld_trans ld) w
  end.
Definition in_dictionary (ld : locale) (w : str) : bool :=
  match translate_word ld w with Some _ => true | None => false end.

(** createPermutation (utils.go:63-101). [perm_column] is the inner loop (:83-94) for one input position,
    the results' column; an empty entry makes [currentTotal / nEntry] panic. *)
Fixpoint perm_column {A} (entries : list A) (d : A) (maxsub : nat) (idx cnt : nat) (n : nat) : list A :=
  match n with
  | O => []
  | S n' =>
    let '(idx, cnt) := if Nat.leb maxsub cnt then (S idx, O) else (idx, cnt) in
    let idx := if Nat.leb (length entries) idx then O else idx in
    nth idx entries d :: perm_column entries d maxsub idx (S cnt) n'
  end.
Fixpoint perm_columns {A} (d : A) (n total : nat) (input : list (list A)) : list (list A) :=
  match input with
  | [] => []
  | e :: r => let m := Nat.div total (length e) in
              perm_column e d m 0 0 n :: perm_columns d n m r
  end.
Definition create_permutation {A} (d : A) (input : list (list A)) : res (list (list A)) :=
  if existsb (fun e => match e with [] => true | _ => false end) input then Panic
  else
    let n := fold_left (fun a e => (a * length e)%nat) input 1%nat in
    let cols := perm_columns d n n input in
    Ok (map (fun p => map (fun c => nth p c d) cols) (seq 0 n)).

(** sequencing of [res] over a list *)
Fixpoint rmap {A B} (f : A -> res B) (l : list A) : res (list B) :=
  match l with
  | [] => Ok []
  | x :: l' => do y <- f x ; do ys <- rmap f l' ; Ok (y :: ys)
  end.

(** [s[pos[2i]:pos[2i+1]]]: panics when the group is unset (index -1) *)
Definition sub_or_panic (s : str) (m : match_) (i : nat) : res str :=
  match cap m i with Some (a, b) => Ok (slice s a b) | None => Panic end.

Section Lang.
Variable E : env.
Let U := e_uni E.

(** Simplify (translate.go:96-104) *)
Definition simplify (ld : locale) (s : str) : str :=
  fold_left (fun s p => if match_string U (fst p) s then replace_all_string U (fst p) s (snd p) else s) (ld_simpl ld) s.

(** ** split.go *)
(** splitWithRegex (split.go:101-142). The loop runs forever on a regex that matches the empty string (none of
    the tables has one); [fuel] is the length of the string. *)
Fixpoint split_with_regex (fuel : nat) (s : str) (rx : regex) : res str :=
  match fuel with
  | O => Ok s
  | S f =>
    match Regex.find U rx s with
    | None => Ok s
    | Some m =>
      do mid <-
        (if Nat.eqb (rx_ngroups rx) 1 then
           do g1 <- sub_or_panic s m 1 ; Ok (split_separator ++ g1 ++ split_separator)
         else if Nat.eqb (rx_ngroups rx) 3 then
           do g1 <- sub_or_panic s m 1 ; do g2 <- sub_or_panic s m 2 ; do g3 <- sub_or_panic s m 3 ;
           Ok (g1 ++ split_separator ++ g2 ++ split_separator ++ g3)
         else Ok (split_separator ++ slice s (mt_start m) (mt_end m) ++ split_separator)) ;
      do rest <- split_with_regex f (skipn (mt_end m) s) rx ;
      Ok (firstn (mt_start m) s ++ mid ++ rest)
    end
  end.

(** tokenShouldBeCaptured (split.go:251-256) *)
Definition token_captured (token : str) (keep : bool) : bool :=
  keep || mem token always_kept || match_string U rxKeepToken1 token || match_string U rxKeepToken2 token.

(** splitByNumerals (split.go:221-249): maximal runs of equal unicode.IsDigit *)
Fixpoint numeral_groups (cur : list Z) (curdigit : bool) (rs : list Z) : list (list Z) :=
  match rs with
  | [] => [rev cur]
  | r :: rs' => let d := u_isNd U r in
                if Bool.eqb d curdigit then numeral_groups (r :: cur) curdigit rs'
                else rev cur :: numeral_groups [r] d rs'
  end.
Definition split_numerals (s : str) (keep : bool) : list str :=
  let groups := match runes s with
                | [] => [[]]
                | r :: rs => numeral_groups [r] (u_isNd U r) rs
                end in
  filter (fun t => token_captured t keep) (map encode groups).

(** checkKnownWordNeighbor (split.go:206-219) *)
Definition neighbor_ok (s : str) (is_prefix : bool) : bool :=
  match s with
  | [] => true
  | _ => let r := if is_prefix then last_rune s else fst (decode_rune s) in
         (r =? 95) || u_isN U r || negb (u_isL U r || u_isM U r || u_isN U r)
  end.

(** findMatchingKnownWord (split.go:168-204); the result is (prefix, match, suffix) *)
Fixpoint find_known (ld : locale) (s : str) (words : list str) (best : option (nat * (str * str * str)))
  : option (str * str * str) :=
  match words with
  | [] => option_map snd best
  | w :: ws =>
    match index s w with
    | None => find_known ld s ws best
    | Some pos =>
      let prefix := firstn pos s in
      let suffix := skipn (pos + length w) s in
      if ld_nospacing ld || (neighbor_ok prefix true && neighbor_ok suffix false) then
        let best' := match best with
                     | None => Some (pos, (prefix, w, suffix))
                     | Some (p, _) => if Nat.ltb pos p then Some (pos, (prefix, w, suffix)) else best
                     end in
        if Nat.eqb pos 0 then option_map snd best' else find_known ld s ws best'
      else find_known ld s ws best
    end
  end.
Definition find_known_word (ld : locale) (s : str) : option (str * str * str) :=
  if empty (trim_space s) then None else find_known ld s (ld_known ld) None.

(** splitByKnownWords (split.go:144-166); [fuel]: the suffix is shorter because known words are not empty *)
Fixpoint split_known (fuel : nat) (ld : locale) (s : str) (keep : bool) : list str :=
  match fuel with
  | O => []
  | S f =>
    match find_known_word ld s with
    | None => if token_captured s keep then split_numerals s keep else []
    | Some (unparsed, known, unknown) =>
      (if negb (empty unparsed) && token_captured unparsed keep then split_numerals unparsed keep else []) ++
      (if token_captured known keep then [known] else []) ++
      (if empty unknown then [] else split_known f ld unknown keep)
    end
  end.

(** Split (split.go:15-47) *)
Definition lsplit (ld : locale) (s : str) (keep : bool) (skipped : list str) : res (list str) :=
  do s' <- match ld_rx ld with Some rx => split_with_regex (S (length s)) s rx | None => Ok s end ;
  let tokens := flat_map (fun token =>
     if match ld_rx_exact ld with Some rx => match_string U rx token | None => false end then [token]
     else split_known (S (length token)) ld token keep) (split s' split_separator) in
  Ok (filter (fun t => negb (empty t) && negb (mem (trim_space t) skipped)) tokens).

(** SplitSentence (split.go:49-99) *)
Fixpoint sentence_loop (ld : locale) (s : str) (ms : list match_) (last : nat) : res (list str) :=
  match ms with
  | [] => let l := trim_space (skipn last s) in Ok (if empty l then [] else [l])
  | m :: ms' =>
    match cap m 1 with
    | None => Panic
    | Some (a, b) =>
      let eos := slice s a b in
      if mem eos (ld_abbr ld) || (mem (ld_name ld) digit_abbr_langs && is_number_only U eos)
      then sentence_loop ld s ms' last
      else
        let sentence := trim_space (slice s last b) in
        do rest <- sentence_loop ld s ms' (mt_end m) ;
        Ok (if empty sentence then rest else sentence :: rest)
    end
  end.
Definition split_sentence (ld : locale) (s : str) : res (list str) :=
  let g := ld_splitter ld in
  let g := if (g <? 1) || (6 <? g) then 1 else g in
  sentence_loop ld s (find_all U (sentence_splitter g) s) 0.

(** simpleSplit (split.go:258-287) *)
Fixpoint simple_tokens (s : str) (ms : list match_) (last : nat) : list str :=
  match ms with
  | [] => let l := skipn last s in if empty l then [] else [l]
  | m :: ms' =>
    let before := slice s last (mt_start m) in
    (if empty before then [] else [before]) ++ slice s (mt_start m) (mt_end m) :: simple_tokens s ms' (mt_end m)
  end.
Definition simple_split (ld : locale) (s : str) (keep : bool) (skipped : list str) : res (list str) :=
  do l <- rmap (fun t => lsplit ld t keep skipped)
               (filter (fun t => negb (empty t)) (simple_tokens s (find_all U rxNumeral s) 0)) ;
  Ok (concat l).

(** ** translate.go *)
(** clearFutureWords (translate.go:106-125) *)
Definition clear_future_words (words : list str) : list str :=
  if existsb (fun w => mem w freshness_words) words then words
  else filter (fun w => negb (eqs w (lit "in"))) words.

(** translation alternatives of one token (translate.go:29-66) *)
Definition translate_token (ld : locale) (skipped : list str) (keep : bool) (token : str) : list str :=
  if mem token skipped then [[]]
  else match List.find (fun p => match_string U (fst p) token) (ld_relrx ld) with
  | Some (rx, repl) => [replace_all_string U rx token repl]
  | None =>
    match translate_word ld token with
    | Some ts => map (fun t => if empty t && keep then token else t) ts
    | None => [token]
    end
  end.

(** common prefix of Translate and IsApplicable: normalisation (translate.go:19-21) *)
Definition normalize_token (s : str) : str := digit_normalize U (normalize_string U s).

(** clean-up of one permutation (translate.go:73-91) *)
Definition finish_translation (keep : bool) (tokens : list str) : str :=
  let tokens := if mem (lit "in") tokens then clear_future_words tokens else tokens in
  let tokens := filter (fun t => negb (empty t)) tokens in
  join tokens (if keep then [] else lit " ").

(** Translate (translate.go:14-94) *)
Definition translate (cfg : config) (ld : locale) (s : str) (keep : bool) : res (list str) :=
  let skipped := skipped_tokens cfg ld in
  do tokens <- lsplit ld (simplify ld (normalize_token s)) keep skipped ;
  do perms <- create_permutation [] (map (translate_token ld skipped keep) tokens) ;
  Ok (map (finish_translation keep) perms).

(** ** applicable-check.go *)
(** IsApplicable (applicable-check.go:16-64) *)
Definition token_known (ld : locale) (skipped : list str) (token : str) : bool :=
  is_number_only U token || in_dictionary ld token || mem token skipped ||
  match ld_rx_exact ld with Some rx => match_string U rx token | None => false end.
Definition is_applicable (cfg : config) (ld : locale) (s : str) (strip : bool) : res bool :=
  let skipped := skipped_tokens cfg ld in
  let s := if strip then fst (etz_pop E s) else s in
  do tokens <- lsplit ld (simplify ld (normalize_token s)) false skipped ;
  Ok (if forallb (fun t => mem t always_kept) tokens then false else forallb (token_known ld skipped) tokens).

(** set of the tokens: first occurrences *)
Fixpoint dedup (l : list str) : list str :=
  match l with [] => [] | x :: l' => if mem x l' then dedup l' else x :: dedup l' end.

(** CountApplicability (applicable-check.go:66-106): counts over the set of tokens *)
Definition count_applicability (cfg : config) (ld : locale) (s : str) (strip : bool) : res (Z * Z) :=
  let s := if strip then fst (etz_pop E s) else s in
  do sentences <- split_sentence ld (simplify ld s) ;
  do ts <- rmap (fun sent => simple_split ld sent false (c_skip cfg)) sentences ;
  Ok (fold_left (fun acc token =>
        let '(nexist, nskipped) := acc in
        match mget (ld_trans ld) token with
        | Some trs =>
          if Nat.leb 2 (rune_count token) then
            match trs with [] => (nexist, nskipped + 1) | _ => (nexist + 1, nskipped) end
          else if is_number_only U token then (nexist, nskipped + 1) else (nexist, nskipped)
        | None => if is_number_only U token then (nexist, nskipped + 1) else (nexist, nskipped)
        end) (dedup (concat ts)) (0, 0)).

(** ** translate-search.go *)
(** wordSplit (translate-search.go:175-181) *)
Definition word_split (ld : locale) (s : str) (skipped : list str) : res (list str) :=
  if ld_nospacing ld then simple_split ld s true skipped else Ok (fields s).
(** joinChunk (:183-191) *)
Definition join_chunk (ld : locale) (chunk : list str) : str :=
  if ld_nospacing ld then join chunk [] else replace_all_string U rxSpaces (sjoin chunk (lit " ")) (lit " ").
(** filterChunk (:193-201) *)
Definition filter_chunk (chunk : list str) : list str := filter (fun c => negb (empty c)) chunk.
(** tokenWithDigitsIsOk (:203-209) *)
Definition token_digits_ok (ld : locale) (token : str) : bool :=
  match_string U (if ld_nospacing ld then rxTokenDigit else rxNumeral) token.
(** insertSlice (:211-223) *)
Definition insert_slice (l : list str) (i : nat) (s : str) : list str :=
  let i := Nat.min i (length l) in firstn i l ++ s :: skipn i l.
(** removeEmptySliceItem (:225-241) *)
Fixpoint remove_empty (l : list str) : option (list str) :=
  match l with
  | [] => None
  | x :: l' => if empty x then Some l' else option_map (cons x) (remove_empty l')
  end.

(** first alignment loop of simplifySplitAlign (:122-137): [long] is ranged over from index [i], [short] grows *)
Fixpoint align_loop (eq : str -> str -> bool) (long : list str) (i : nat) (addEmpty : bool) (short : list str) : list str :=
  match long with
  | [] => short
  | token :: r =>
    match nth_error short i with
    | Some st =>
      if eq token st then align_loop eq r (S i) false short
      else if addEmpty then align_loop eq r (S i) addEmpty (insert_slice short i [])
      else align_loop eq r (S i) true short
    | None => align_loop eq r (S i) addEmpty (short ++ [[]])
    end
  end.
(** second loop (:158-170) *)
Fixpoint balance (fuel : nat) (a b : list str) : list str * list str :=
  match fuel with
  | O => (a, b)
  | S f =>
    if Nat.eqb (length a) (length b) then (a, b)
    else if Nat.ltb (length b) (length a) then
      match remove_empty a with Some a' => balance f a' b | None => (a, b) end
    else match remove_empty b with Some b' => balance f a b' | None => (a, b) end
  end.
(** simplifySplitAlign (:105-173): (original tokens, simplified tokens) *)
Definition simplify_split_align (ld : locale) (s : str) (skipped : list str) : res (list str * list str) :=
  do simp <- word_split ld (simplify ld (normalize_token s)) skipped ;
  do orig <- word_split ld s skipped ;
  let no := length orig in let ns := length simp in
  if Nat.eqb no ns then Ok (orig, simp)
  else if Nat.ltb no ns then
    let orig' := align_loop (fun t o => eqs t (normalize_token o)) simp 0 false orig in
    Ok (balance (length orig' + length simp) orig' simp)
  else
    let simp' := align_loop (fun t x => eqs (normalize_token t) x) orig 0 false simp in
    Ok (balance (length orig + length simp') orig simp').

(** TranslateSearch's inner loop (:33-84). State: the current chunk (translated alternatives and originals,
    reversed) and the finished chunks (reversed). [orig] are all original tokens, indexed by [i]; an index out of
    range panics. *)
Definition flush (tc : list (list str)) (oc : list str) (done : list (list str * list str))
  : res (list (list str * list str)) :=
  match tc with
  | [] => Ok done
  | _ => do ps <- create_permutation [] (rev tc) ;
         Ok (rev (map (fun p => (p, rev oc)) ps) ++ done)
  end.
Definition orig_at (orig : list str) (i : nat) : res str :=
  match nth_error orig i with Some o => Ok o | None => Panic end.
Fixpoint ts_loop (ld : locale) (orig : list str) (words : list str) (i : nat) (skip : bool)
  (tc : list (list str)) (oc : list str) (done : list (list str * list str)) : res (list (list str * list str)) :=
  match words with
  | [] => flush tc oc done
  | word :: rest =>
    if skip then ts_loop ld orig rest (S i) false tc oc done
    else
      let next := match rest with n :: _ => n | [] => [] end in
      let joined := join_chunk ld [word; next] in
      let cleaned := trim_chars word (lit "()""'{}[],.،") in
      let not_dash := negb (mem word dashes) in
      let join_unusable := eqs (ld_name ld) (lit "zh") || eqs (ld_name ld) (lit "ja") in
      if empty word || eqs word (lit " ") then
        do o <- orig_at orig i ; ts_loop ld orig rest (S i) false ([word] :: tc) (o :: oc) done
      else if in_dictionary ld joined && not_dash && negb join_unusable then
        do o <- orig_at orig i ; do o2 <- orig_at orig (S i) ;
        ts_loop ld orig rest (S i) true
          (match translate_word ld joined with Some t => t | None => [] end :: tc) (join_chunk ld [o; o2] :: oc) done
      else if in_dictionary ld word && not_dash then
        do o <- orig_at orig i ;
        ts_loop ld orig rest (S i) false
          (match translate_word ld word with Some t => t | None => [] end :: tc) (o :: oc) done
      else if in_dictionary ld cleaned && not_dash then
        let punct := skipn (length cleaned) word in
        do o <- orig_at orig i ;
        ts_loop ld orig rest (S i) false
          (map (fun t => t ++ punct) (match translate_word ld cleaned with Some t => t | None => [] end) :: tc) (o :: oc) done
      else if token_digits_ok ld word then
        do o <- orig_at orig i ; ts_loop ld orig rest (S i) false ([word] :: tc) (o :: oc) done
      else match tc with
      | [] => ts_loop ld orig rest (S i) false tc oc done
      | _ =>
        do o <- orig_at orig i ;
        if word_is_tz U o then ts_loop ld orig rest (S i) false ([word] :: tc) (o :: oc) done
        else do done' <- flush tc oc done ; ts_loop ld orig rest (S i) false [] [] done'
      end
  end.
(** TranslateSearch (:15-103): (translations, originals) *)
Definition translate_search (cfg : config) (ld : locale) (s : str) : res (list str * list str) :=
  let skipped := skipped_tokens cfg ld in
  do sentences <- split_sentence ld s ;
  do chunks <- rmap (fun sentence =>
     do (orig, simp) <- simplify_split_align ld sentence skipped ;
     do done <- ts_loop ld orig simp 0 false [] [] [] ;
     Ok (rev done)) sentences ;
  let l := concat chunks in
  Ok (map (fun p => join_chunk ld (filter_chunk (clear_future_words (fst p)))) l,
      map (fun p => join_chunk ld (filter_chunk (snd p))) l).

(** ** loader.go, languages.go, detector.go *)
Variable D : langdb.

Definition known (s : str) : bool := match db_get D s with Some _ => true | None => false end.

(** the comparison of loader.go:120-131 *)
Definition locale_lt (a b : str) : bool :=
  if db_order D a =? db_order D b then lts a b else db_order D a <? db_order D b.
(** languages.go:61-69 *)
Definition lang_lt (a b : str) : bool :=
  if lang_order D a =? lang_order D b then lts a b else lang_order D a <? lang_order D b.

(** loader.go:36-61: [tracker] lists the accepted locales in order, [langs] the languages seen *)
Fixpoint pick_locales (allow : bool) (ls : list str) (tracker langs invalid : list str) : res (list str) :=
  match ls with
  | [] => match invalid with [] => Ok (rev tracker) | _ => Err EUnknownLocales end
  | l :: r =>
    if mem l tracker then pick_locales allow r tracker langs invalid
    else if negb (known l) then pick_locales allow r tracker langs (l :: invalid)
    else if allow then pick_locales allow r (l :: tracker) langs invalid
    else
      let lang := remove_region U l in
      if mem lang langs then Err EConflictingLocales
      else pick_locales allow r (l :: tracker) (lang :: langs) invalid
  end.
(** loader.go:80-115 *)
Fixpoint pick_languages (region : str) (ls : list str) (tracker langs : list str) (unknown : bool) : res (list str) :=
  match ls with
  | [] => if unknown then Err EUnknownLanguages else Ok (rev tracker)
  | l :: r =>
    if mem l langs then pick_languages region r tracker langs unknown
    else
      let langs := l :: langs in
      if negb (mem l (db_langs D)) then pick_languages region r tracker langs true
      else
        let loc := if empty region then l else l ++ lit "-" ++ region in
        if mem loc tracker then pick_languages region r tracker langs unknown
        else if negb (known loc) then pick_languages region r tracker langs unknown
        else pick_languages region r (loc :: tracker) langs unknown
  end.
Fixpoint fetch (names : list str) : list locale :=
  match names with
  | [] => []
  | n :: r => match db_get D n with Some ld => ld :: fetch r | None => fetch r end
  end.
(** GetLocales (loader.go:25-149) *)
Definition get_locales (locales languages : list str) (region : str) (given_order allow : bool) : res (list locale) :=
  do names <-
    match locales with
    | _ :: _ => pick_locales allow locales [] [] []
    | [] => let languages := match languages with [] => db_langs D | l => l end in
            pick_languages (trim_space (to_upper U region)) languages [] [] false
    end ;
  let names := if given_order then names else sort_by locale_lt names in
  match fetch names with
  | [] => Err ENotFound
  | l => Ok l
  end.

(** GetLanguages (languages.go:13-82) *)
Fixpoint pick_locale_languages (ls : list str) (acc : list str) (invalid : bool) : res (list str) :=
  match ls with
  | [] => if invalid then Err EUnknownLocales else Ok (rev acc)
  | l :: r =>
    if negb (known l) then pick_locale_languages r acc true
    else let lang := remove_region U l in
         pick_locale_languages r (if mem lang acc then acc else lang :: acc) invalid
  end.
Definition get_languages (locales languages : list str) (given_order : bool) : res (list str) :=
  do result <-
    match locales with
    | _ :: _ => pick_locale_languages locales [] false
    | [] => if forallb (fun l => mem l (db_langs D)) languages then Ok languages else Err EUnknownLanguages
    end ;
  let result := if given_order then result else sort_by lang_lt result in
  Ok (match result with [] => db_langs D | l => l end).

(** GetUniqueCharsets (languages.go:84-131). The order of the runes of one language comes from a map iteration;
    the only use (detector.go:91-97) is an existence test. *)
Definition charset_of (l : str) : list Z := match db_get D l with Some ld => ld_charset ld | None => [] end.
Definition unique_charset (languages : list str) (l : str) : list Z :=
  filter (fun c => negb (existsb (fun o => negb (eqs o l) && existsb (Z.eqb c) (charset_of o)) languages)) (charset_of l).
Definition unique_charsets (languages : list str) : smap (list Z) :=
  fold_left (fun m l => if known l then mset m l (unique_charset languages l) else m) languages [].

(** getLanguageCandidates (detector.go:73-128) *)
Definition language_candidates (s : str) (languages : list str) (uc : smap (list Z)) : res (list str) :=
  let cs := runes (normalize_charset U s) in
  let used := fun l => existsb (fun c => existsb (Z.eqb c) cs) l in
  if forallb (fun c => existsb (Z.eqb c) common_charset) cs then
    match languages with [] => Panic | l :: _ => Ok [l] end
  else match List.find (fun l => used (mget_or [] uc l)) languages with
  | Some l => Ok [l]
  | None => Ok (filter (fun l => match db_get D l with Some ld => used (ld_charset ld) | None => false end) languages)
  end.

(** scores of the candidates (detector.go:24-46), candidates without a score dropped *)
Definition positive (p : Z * Z) : bool := (0 <? fst p) || (0 <? snd p).
Fixpoint score_candidates (cfg : config) (s : str) (cands : list str) : res (list (str * (Z * Z))) :=
  match cands with
  | [] => Ok []
  | c :: r =>
    match db_get D c with
    | None => score_candidates cfg s r
    | Some ld =>
      do sc <- count_applicability cfg ld s false ;
      if positive sc then do rest <- score_candidates cfg s r ; Ok ((c, sc) :: rest)
      else do sc2 <- count_applicability cfg ld s true ;
           do rest <- score_candidates cfg s r ;
           Ok (if positive sc2 then (c, sc2) :: rest else rest)
    end
  end.
(** the comparison of detector.go:58-69: better candidates first *)
Definition score_lt (a b : str * (Z * Z)) : bool :=
  if fst (snd a) =? fst (snd b) then snd (snd b) <? snd (snd a) else fst (snd b) <? fst (snd a).
(** DetectFullTextLanguage (detector.go:13-72) *)
Definition detect_language (cfg : config) (s : str) (languages : list str) (uc : smap (list Z)) : res str :=
  do cands <- language_candidates s languages uc ;
  match cands with
  | [c] => Ok c
  | _ =>
    do scored <- score_candidates cfg (normalize_string U s) cands ;
    match sort_by score_lt scored with
    | [] => match c_deflang cfg with d :: _ => Ok d | [] => Err EDetect end
    | (c, _) :: _ => Ok c
    end
  end.
End Lang.
