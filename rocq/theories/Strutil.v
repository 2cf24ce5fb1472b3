(** internal/strutil *)
From Verif Require Import GoBase Regex.

(** internal/strutil/strutil.go:19-34 aposthropeTransformer. [runes.Map] replaces malformed bytes by U+FFFD. *)
Definition apos_map (r : Z) : Z :=
  if existsb (Z.eqb r) [8217; 700; 699; 1370; 42892; 8242; 8245; 697; 65287] then 39 else r.
(** internal/strutil/strutil.go:36-41 braceTransformer: { } ( ) < > [ ] *)
Definition is_brace (r : Z) : bool := existsb (Z.eqb r) [123; 125; 40; 41; 60; 62; 91; 93].

(** internal/strutil/strutil.go:43-47 *)
Definition rxSanitizeSkip : regex := Eval vm_compute in rxc "\t|\n|\r|\x{00bb}|,\s\x{0432}\b|\x{200e}|\x{b7}|\x{200f}|\x{064e}|\x{064f}".
Definition rxSanitizeRussian : regex := Eval vm_compute in rxc "(?i)([\PL\pN])\x{0433}\.".
Definition rxSanitizeCroatian : regex := Eval vm_compute in rxc "(?i)(\pN+)\.\s?(\pN+)\.\s?(\pN+)\.( u)?".
Definition rxSanitizePeriod : regex := Eval vm_compute in rxc "(?i)([^\pN\.\s])\.".
Definition rxSanitizeOn : regex := Eval vm_compute in rxc "(?i)^.*?on:\s+(.*)".

(** UTF-8 of U+00A0 *)
Definition nbsp : str := [194; 160].

(** SanitizeSpaces (internal/strutil/strutil.go:52-56) *)
Definition sanitize_spaces (s : str) : str := sjoin (fields (replace_all s nbsp [])) (lit " ").

(** NormalizeAposthrope (strutil.go:69-72) *)
Definition normalize_apos (s : str) : str := encode (map apos_map (runes s)).
(** StripBraces (strutil.go:115-118) *)
Definition strip_braces (s : str) : str := encode (filter (fun r => negb (is_brace r)) (runes s)).

Section U.
Variable U : uni.

(** NormalizeUnicode (strutil.go:60-66); the transformer is a field of [uni] *)
Definition normalize_unicode (s : str) : str := u_nfkd_noMn_nfkc U s.
(** NormalizeCharset (strutil.go:76-87) *)
Definition normalize_charset (s : str) : str :=
  sanitize_spaces (to_lower U (replace_all (normalize_apos (u_nfkc U s)) (lit ".") [])).
(** NormalizeString (strutil.go:92-97) *)
Definition normalize_string (s : str) : str := sanitize_spaces (to_lower U (normalize_unicode s)).

(** SanitizeDate (strutil.go:101-112) *)
Definition sanitize_date (s : str) : str :=
  let s := replace_all_string U rxSanitizeSkip s (lit " ") in
  let s := replace_all_string U rxSanitizeRussian s (lit "$1 ") in
  let s := replace_all_string U rxSanitizeCroatian s (lit "$1.$2.$3 ") in
  let s := sanitize_spaces s in
  let s := replace_all_string U rxSanitizePeriod s (lit "$1") in
  let s := replace_all_string U rxSanitizeOn s (lit "$1") in
  let s := trim_suffix s (lit ":") in
  let s := normalize_apos s in
  trim_space s.

(** RemoveRegion (strutil.go:121-131) *)
Definition remove_region (locale : str) : str :=
  match last_index1 locale 45 with
  | None => locale
  | Some i => let suffix := skipn (S i) locale in
              if negb (empty suffix) && eqs suffix (to_upper U suffix) then firstn i locale else locale
  end.

(** IsNumberOnly (strutil.go:148-155) *)
Definition is_number_only (s : str) : bool := forallb (u_isNd U) (runes s).
End U.

(** TrimChars (strutil.go:135-145) *)
Definition trim_chars (s chars : str) : str := trim_func (fun r => existsb (Z.eqb r) (runes chars)) s.
