(** Generated by tools/gen_all_locales.py from /repo/internal/data. Do not edit. *)
From Verif Require Import GoBase SMap Regex Language LocaleData.

(** es.go:207-210 *)
Definition own_es_419 : locale := Eval vm_compute in
  {| ld_name := lit "es-419"; ld_order := lit "DMY"; ld_nospacing := false; ld_splitter := 0;
    ld_charset := runes (lit "");
    ld_abbr := [];
    ld_simpl := [];
    ld_trans := [];
    ld_reltype := [];
    ld_relrx := [];
    ld_rx := None;
    ld_rx_exact := None;
    ld_known := [] |}.
Definition loc_es_419 : locale := merge loc_es own_es_419.

(** es.go:212-225 *)
Definition own_es_AR : locale := Eval vm_compute in
  {| ld_name := lit "es-AR"; ld_order := lit "DMY"; ld_nospacing := false; ld_splitter := 0;
    ld_charset := runes (lit "");
    ld_abbr := [];
    ld_simpl := [];
    ld_trans := [(lit "seg", [lit "second"])];
    ld_reltype := [];
    ld_relrx := [(rx "(?i)dentro de (\d+[.,]?\d*) seg", lit "in $1 second");
    (rx "(?i)hace (\d+[.,]?\d*) seg", lit "$1 second ago")];
    ld_rx := Some (rx "(?i)(\A|[^\pL\pM\d]|_)(dentro de \d+[.,]?\d* segundos|dentro de \d+[.,]?\d* minutos|dentro de \d+[.,]?\d* segundo|dentro de \d+[.,]?\d* semanas|dentro de \d+[.,]?\d* minuto|dentro de \d+[.,]?\d* semana|dentro de \d+[.,]?\d* horas|dentro de \d+[.,]?\d* meses|dentro de \d+[.,]?\d* anos|dentro de \d+[.,]?\d* dias|dentro de \d+[.,]?\d* hora|dentro de \d+[.,]?\d* ano|dentro de \d+[.,]?\d* dia|dentro de \d+[.,]?\d* mes|dentro de \d+[.,]?\d* min|dentro de \d+[.,]?\d* seg|dentro de \d+[.,]?\d* sem|hace \d+[.,]?\d* segundos|hace \d+[.,]?\d* minutos|hace \d+[.,]?\d* segundo|hace \d+[.,]?\d* semanas|dentro de \d+[.,]?\d* a|dentro de \d+[.,]?\d* h|dentro de \d+[.,]?\d* m|dentro de \d+[.,]?\d* s|hace \d+[.,]?\d* minuto|hace \d+[.,]?\d* semana|hace \d+[.,]?\d* horas|hace \d+[.,]?\d* meses|hace \d+[.,]?\d* anos|hace \d+[.,]?\d* dias|hace \d+[.,]?\d* hora|hace \d+[.,]?\d* ano|hace \d+[.,]?\d* dia|hace \d+[.,]?\d* mes|hace \d+[.,]?\d* min|hace \d+[.,]?\d* seg|hace \d+[.,]?\d* sem|hace \d+[.,]?\d* a|hace \d+[.,]?\d* h|hace \d+[.,]?\d* m|hace \d+[.,]?\d* s)(\z|[^\pL\pM\d]|_)");
    ld_rx_exact := Some (rx "(?i)^(dentro de \d+[.,]?\d* segundos|dentro de \d+[.,]?\d* minutos|dentro de \d+[.,]?\d* segundo|dentro de \d+[.,]?\d* semanas|dentro de \d+[.,]?\d* minuto|dentro de \d+[.,]?\d* semana|dentro de \d+[.,]?\d* horas|dentro de \d+[.,]?\d* meses|dentro de \d+[.,]?\d* anos|dentro de \d+[.,]?\d* dias|dentro de \d+[.,]?\d* hora|dentro de \d+[.,]?\d* ano|dentro de \d+[.,]?\d* dia|dentro de \d+[.,]?\d* mes|dentro de \d+[.,]?\d* min|dentro de \d+[.,]?\d* seg|dentro de \d+[.,]?\d* sem|hace \d+[.,]?\d* segundos|hace \d+[.,]?\d* minutos|hace \d+[.,]?\d* segundo|hace \d+[.,]?\d* semanas|dentro de \d+[.,]?\d* a|dentro de \d+[.,]?\d* h|dentro de \d+[.,]?\d* m|dentro de \d+[.,]?\d* s|hace \d+[.,]?\d* minuto|hace \d+[.,]?\d* semana|hace \d+[.,]?\d* horas|hace \d+[.,]?\d* meses|hace \d+[.,]?\d* anos|hace \d+[.,]?\d* dias|hace \d+[.,]?\d* hora|hace \d+[.,]?\d* ano|hace \d+[.,]?\d* dia|hace \d+[.,]?\d* mes|hace \d+[.,]?\d* min|hace \d+[.,]?\d* seg|hace \d+[.,]?\d* sem|hace \d+[.,]?\d* a|hace \d+[.,]?\d* h|hace \d+[.,]?\d* m|hace \d+[.,]?\d* s)$");
    ld_known := [lit "la proxima semana";
    lit "la semana pasada";
    lit "el proximo ano";
    lit "el proximo mes";
    lit "el ano pasado";
    lit "el mes pasado";
    lit "esta semana";
    lit "este minuto";
    lit "septiembre";
    lit "diciembre";
    lit "esta hora";
    lit "miercoles";
    lit "noviembre";
    lit "setiembre";
    lit "anteayer";
    lit "este ano";
    lit "este mes";
    lit "segundos";
    lit "domingo";
    lit "febrero";
    lit "minutos";
    lit "octubre";
    lit "segundo";
    lit "semanas";
    lit "viernes";
    lit "agosto";
    lit "jueves";
    lit "manana";
    lit "martes";
    lit "minuto";
    lit "sabado";
    lit "semana";
    lit "a las";
    lit "abril";
    lit "ahora";
    lit "cerca";
    lit "enero";
    lit "horas";
    lit "julio";
    lit "junio";
    lit "lunes";
    lit "marzo";
    lit "meses";
    lit "anos";
    lit "ayer";
    lit "dias";
    lit "hace";
    lit "hora";
    lit "mayo";
    lit "sept";
    lit "abr";
    lit "ago";
    lit "ano";
    lit "del";
    lit "dia";
    lit "dic";
    lit "dom";
    lit "ene";
    lit "feb";
    lit "gmt";
    lit "hoy";
    lit "jue";
    lit "jul";
    lit "jun";
    lit "lun";
    lit "mar";
    lit "may";
    lit "mes";
    lit "mie";
    lit "min";
    lit "nov";
    lit "oct";
    lit "sab";
    lit "seg";
    lit "sem";
    lit "sep";
    lit "set";
    lit "utc";
    lit "vie";
    lit "am";
    lit "de";
    lit "do";
    lit "en";
    lit "ju";
    lit "lu";
    lit "mi";
    lit "pm";
    lit "sa";
    lit "vi";
    lit " ";
    lit "'";
    lit "+";
    lit ",";
    lit "-";
    lit ".";
    lit "/";
    lit ":";
    lit ";";
    lit "@";
    lit "[";
    lit "]";
    lit "a";
    lit "d";
    lit "h";
    lit "m";
    lit "s";
    lit "y";
    lit "z";
    lit "|"] |}.
Definition loc_es_AR : locale := merge loc_es own_es_AR.

(** es.go:227-230 *)
Definition own_es_BO : locale := Eval vm_compute in
  {| ld_name := lit "es-BO"; ld_order := lit "DMY"; ld_nospacing := false; ld_splitter := 0;
    ld_charset := runes (lit "");
    ld_abbr := [];
    ld_simpl := [];
    ld_trans := [];
    ld_reltype := [];
    ld_relrx := [];
    ld_rx := None;
    ld_rx_exact := None;
    ld_known := [] |}.
Definition loc_es_BO : locale := merge loc_es own_es_BO.

(** es.go:232-235 *)
Definition own_es_BR : locale := Eval vm_compute in
  {| ld_name := lit "es-BR"; ld_order := lit "DMY"; ld_nospacing := false; ld_splitter := 0;
    ld_charset := runes (lit "");
    ld_abbr := [];
    ld_simpl := [];
    ld_trans := [];
    ld_reltype := [];
    ld_relrx := [];
    ld_rx := None;
    ld_rx_exact := None;
    ld_known := [] |}.
Definition loc_es_BR : locale := merge loc_es own_es_BR.

(** es.go:237-240 *)
Definition own_es_BZ : locale := Eval vm_compute in
  {| ld_name := lit "es-BZ"; ld_order := lit "DMY"; ld_nospacing := false; ld_splitter := 0;
    ld_charset := runes (lit "");
    ld_abbr := [];
    ld_simpl := [];
    ld_trans := [];
    ld_reltype := [];
    ld_relrx := [];
    ld_rx := None;
    ld_rx_exact := None;
    ld_known := [] |}.
Definition loc_es_BZ : locale := merge loc_es own_es_BZ.

(** es.go:242-245 *)
Definition own_es_CL : locale := Eval vm_compute in
  {| ld_name := lit "es-CL"; ld_order := lit "DMY"; ld_nospacing := false; ld_splitter := 0;
    ld_charset := runes (lit "");
    ld_abbr := [];
    ld_simpl := [];
    ld_trans := [];
    ld_reltype := [];
    ld_relrx := [];
    ld_rx := None;
    ld_rx_exact := None;
    ld_known := [] |}.
Definition loc_es_CL : locale := merge loc_es own_es_CL.

(** es.go:247-250 *)
Definition own_es_CO : locale := Eval vm_compute in
  {| ld_name := lit "es-CO"; ld_order := lit "DMY"; ld_nospacing := false; ld_splitter := 0;
    ld_charset := runes (lit "");
    ld_abbr := [];
    ld_simpl := [];
    ld_trans := [];
    ld_reltype := [];
    ld_relrx := [];
    ld_rx := None;
    ld_rx_exact := None;
    ld_known := [] |}.
Definition loc_es_CO : locale := merge loc_es own_es_CO.

(** es.go:252-255 *)
Definition own_es_CR : locale := Eval vm_compute in
  {| ld_name := lit "es-CR"; ld_order := lit "DMY"; ld_nospacing := false; ld_splitter := 0;
    ld_charset := runes (lit "");
    ld_abbr := [];
    ld_simpl := [];
    ld_trans := [];
    ld_reltype := [];
    ld_relrx := [];
    ld_rx := None;
    ld_rx_exact := None;
    ld_known := [] |}.
Definition loc_es_CR : locale := merge loc_es own_es_CR.

(** es.go:257-260 *)
Definition own_es_CU : locale := Eval vm_compute in
  {| ld_name := lit "es-CU"; ld_order := lit "DMY"; ld_nospacing := false; ld_splitter := 0;
    ld_charset := runes (lit "");
    ld_abbr := [];
    ld_simpl := [];
    ld_trans := [];
    ld_reltype := [];
    ld_relrx := [];
    ld_rx := None;
    ld_rx_exact := None;
    ld_known := [] |}.
Definition loc_es_CU : locale := merge loc_es own_es_CU.

(** es.go:262-265 *)
Definition own_es_DO : locale := Eval vm_compute in
  {| ld_name := lit "es-DO"; ld_order := lit "DMY"; ld_nospacing := false; ld_splitter := 0;
    ld_charset := runes (lit "");
    ld_abbr := [];
    ld_simpl := [];
    ld_trans := [];
    ld_reltype := [];
    ld_relrx := [];
    ld_rx := None;
    ld_rx_exact := None;
    ld_known := [] |}.
Definition loc_es_DO : locale := merge loc_es own_es_DO.

(** es.go:267-270 *)
Definition own_es_EA : locale := Eval vm_compute in
  {| ld_name := lit "es-EA"; ld_order := lit "DMY"; ld_nospacing := false; ld_splitter := 0;
    ld_charset := runes (lit "");
    ld_abbr := [];
    ld_simpl := [];
    ld_trans := [];
    ld_reltype := [];
    ld_relrx := [];
    ld_rx := None;
    ld_rx_exact := None;
    ld_known := [] |}.
Definition loc_es_EA : locale := merge loc_es own_es_EA.

(** es.go:272-275 *)
Definition own_es_EC : locale := Eval vm_compute in
  {| ld_name := lit "es-EC"; ld_order := lit "DMY"; ld_nospacing := false; ld_splitter := 0;
    ld_charset := runes (lit "");
    ld_abbr := [];
    ld_simpl := [];
    ld_trans := [];
    ld_reltype := [];
    ld_relrx := [];
    ld_rx := None;
    ld_rx_exact := None;
    ld_known := [] |}.
Definition loc_es_EC : locale := merge loc_es own_es_EC.

(** es.go:277-280 *)
Definition own_es_GQ : locale := Eval vm_compute in
  {| ld_name := lit "es-GQ"; ld_order := lit "DMY"; ld_nospacing := false; ld_splitter := 0;
    ld_charset := runes (lit "");
    ld_abbr := [];
    ld_simpl := [];
    ld_trans := [];
    ld_reltype := [];
    ld_relrx := [];
    ld_rx := None;
    ld_rx_exact := None;
    ld_known := [] |}.
Definition loc_es_GQ : locale := merge loc_es own_es_GQ.

(** es.go:282-285 *)
Definition own_es_GT : locale := Eval vm_compute in
  {| ld_name := lit "es-GT"; ld_order := lit "DMY"; ld_nospacing := false; ld_splitter := 0;
    ld_charset := runes (lit "");
    ld_abbr := [];
    ld_simpl := [];
    ld_trans := [];
    ld_reltype := [];
    ld_relrx := [];
    ld_rx := None;
    ld_rx_exact := None;
    ld_known := [] |}.
Definition loc_es_GT : locale := merge loc_es own_es_GT.

(** es.go:287-290 *)
Definition own_es_HN : locale := Eval vm_compute in
  {| ld_name := lit "es-HN"; ld_order := lit "DMY"; ld_nospacing := false; ld_splitter := 0;
    ld_charset := runes (lit "");
    ld_abbr := [];
    ld_simpl := [];
    ld_trans := [];
    ld_reltype := [];
    ld_relrx := [];
    ld_rx := None;
    ld_rx_exact := None;
    ld_known := [] |}.
Definition loc_es_HN : locale := merge loc_es own_es_HN.

(** es.go:292-295 *)
Definition own_es_IC : locale := Eval vm_compute in
  {| ld_name := lit "es-IC"; ld_order := lit "DMY"; ld_nospacing := false; ld_splitter := 0;
    ld_charset := runes (lit "");
    ld_abbr := [];
    ld_simpl := [];
    ld_trans := [];
    ld_reltype := [];
    ld_relrx := [];
    ld_rx := None;
    ld_rx_exact := None;
    ld_known := [] |}.
Definition loc_es_IC : locale := merge loc_es own_es_IC.

(** es.go:297-321 *)
Definition own_es_MX : locale := Eval vm_compute in
  {| ld_name := lit "es-MX"; ld_order := lit "DMY"; ld_nospacing := false; ld_splitter := 0;
    ld_charset := runes (lit "");
    ld_abbr := [];
    ld_simpl := [];
    ld_trans := [];
    ld_reltype := [(lit "la semana proxima", lit "in 1 week");
    (lit "el ano proximo", lit "in 1 year");
    (lit "el mes proximo", lit "in 1 month")];
    ld_relrx := [(rx "(?i)en (\d+[.,]?\d*) meses", lit "in $1 month");
    (rx "(?i)en (\d+[.,]?\d*) dias", lit "in $1 day");
    (rx "(?i)en (\d+[.,]?\d*) dia", lit "in $1 day");
    (rx "(?i)en (\d+[.,]?\d*) mes", lit "in $1 month");
    (rx "(?i)en (\d+[.,]?\d*) min", lit "in $1 minute");
    (rx "(?i)en (\d+[.,]?\d*) sem", lit "in $1 week");
    (rx "(?i)en (\d+[.,]?\d*) a", lit "in $1 year");
    (rx "(?i)en (\d+[.,]?\d*) h", lit "in $1 hour");
    (rx "(?i)en (\d+[.,]?\d*) m", lit "in $1 month");
    (rx "(?i)en (\d+[.,]?\d*) n", lit "in $1 hour");
    (rx "(?i)en (\d+[.,]?\d*) s", lit "in $1 second")];
    ld_rx := Some (rx "(?i)(\A|[^\pL\pM\d]|_)(dentro de \d+[.,]?\d* segundos|dentro de \d+[.,]?\d* minutos|dentro de \d+[.,]?\d* segundo|dentro de \d+[.,]?\d* semanas|dentro de \d+[.,]?\d* minuto|dentro de \d+[.,]?\d* semana|dentro de \d+[.,]?\d* horas|dentro de \d+[.,]?\d* meses|dentro de \d+[.,]?\d* anos|dentro de \d+[.,]?\d* dias|dentro de \d+[.,]?\d* hora|dentro de \d+[.,]?\d* ano|dentro de \d+[.,]?\d* dia|dentro de \d+[.,]?\d* mes|dentro de \d+[.,]?\d* min|dentro de \d+[.,]?\d* sem|hace \d+[.,]?\d* segundos|hace \d+[.,]?\d* minutos|hace \d+[.,]?\d* segundo|hace \d+[.,]?\d* semanas|dentro de \d+[.,]?\d* a|dentro de \d+[.,]?\d* h|dentro de \d+[.,]?\d* m|dentro de \d+[.,]?\d* s|hace \d+[.,]?\d* minuto|hace \d+[.,]?\d* semana|hace \d+[.,]?\d* horas|hace \d+[.,]?\d* meses|hace \d+[.,]?\d* anos|hace \d+[.,]?\d* dias|hace \d+[.,]?\d* hora|en \d+[.,]?\d* meses|hace \d+[.,]?\d* ano|hace \d+[.,]?\d* dia|hace \d+[.,]?\d* mes|hace \d+[.,]?\d* min|hace \d+[.,]?\d* sem|en \d+[.,]?\d* dias|en \d+[.,]?\d* dia|en \d+[.,]?\d* mes|en \d+[.,]?\d* min|en \d+[.,]?\d* sem|hace \d+[.,]?\d* a|hace \d+[.,]?\d* h|hace \d+[.,]?\d* m|hace \d+[.,]?\d* s|en \d+[.,]?\d* a|en \d+[.,]?\d* h|en \d+[.,]?\d* m|en \d+[.,]?\d* n|en \d+[.,]?\d* s)(\z|[^\pL\pM\d]|_)");
    ld_rx_exact := Some (rx "(?i)^(dentro de \d+[.,]?\d* segundos|dentro de \d+[.,]?\d* minutos|dentro de \d+[.,]?\d* segundo|dentro de \d+[.,]?\d* semanas|dentro de \d+[.,]?\d* minuto|dentro de \d+[.,]?\d* semana|dentro de \d+[.,]?\d* horas|dentro de \d+[.,]?\d* meses|dentro de \d+[.,]?\d* anos|dentro de \d+[.,]?\d* dias|dentro de \d+[.,]?\d* hora|dentro de \d+[.,]?\d* ano|dentro de \d+[.,]?\d* dia|dentro de \d+[.,]?\d* mes|dentro de \d+[.,]?\d* min|dentro de \d+[.,]?\d* sem|hace \d+[.,]?\d* segundos|hace \d+[.,]?\d* minutos|hace \d+[.,]?\d* segundo|hace \d+[.,]?\d* semanas|dentro de \d+[.,]?\d* a|dentro de \d+[.,]?\d* h|dentro de \d+[.,]?\d* m|dentro de \d+[.,]?\d* s|hace \d+[.,]?\d* minuto|hace \d+[.,]?\d* semana|hace \d+[.,]?\d* horas|hace \d+[.,]?\d* meses|hace \d+[.,]?\d* anos|hace \d+[.,]?\d* dias|hace \d+[.,]?\d* hora|en \d+[.,]?\d* meses|hace \d+[.,]?\d* ano|hace \d+[.,]?\d* dia|hace \d+[.,]?\d* mes|hace \d+[.,]?\d* min|hace \d+[.,]?\d* sem|en \d+[.,]?\d* dias|en \d+[.,]?\d* dia|en \d+[.,]?\d* mes|en \d+[.,]?\d* min|en \d+[.,]?\d* sem|hace \d+[.,]?\d* a|hace \d+[.,]?\d* h|hace \d+[.,]?\d* m|hace \d+[.,]?\d* s|en \d+[.,]?\d* a|en \d+[.,]?\d* h|en \d+[.,]?\d* m|en \d+[.,]?\d* n|en \d+[.,]?\d* s)$");
    ld_known := [lit "la proxima semana";
    lit "la semana proxima";
    lit "la semana pasada";
    lit "el ano proximo";
    lit "el mes proximo";
    lit "el proximo ano";
    lit "el proximo mes";
    lit "el ano pasado";
    lit "el mes pasado";
    lit "esta semana";
    lit "este minuto";
    lit "septiembre";
    lit "diciembre";
    lit "esta hora";
    lit "miercoles";
    lit "noviembre";
    lit "setiembre";
    lit "anteayer";
    lit "este ano";
    lit "este mes";
    lit "segundos";
    lit "domingo";
    lit "febrero";
    lit "minutos";
    lit "octubre";
    lit "segundo";
    lit "semanas";
    lit "viernes";
    lit "agosto";
    lit "jueves";
    lit "manana";
    lit "martes";
    lit "minuto";
    lit "sabado";
    lit "semana";
    lit "a las";
    lit "abril";
    lit "ahora";
    lit "cerca";
    lit "enero";
    lit "horas";
    lit "julio";
    lit "junio";
    lit "lunes";
    lit "marzo";
    lit "meses";
    lit "anos";
    lit "ayer";
    lit "dias";
    lit "hace";
    lit "hora";
    lit "mayo";
    lit "sept";
    lit "abr";
    lit "ago";
    lit "ano";
    lit "del";
    lit "dia";
    lit "dic";
    lit "dom";
    lit "ene";
    lit "feb";
    lit "gmt";
    lit "hoy";
    lit "jue";
    lit "jul";
    lit "jun";
    lit "lun";
    lit "mar";
    lit "may";
    lit "mes";
    lit "mie";
    lit "min";
    lit "nov";
    lit "oct";
    lit "sab";
    lit "sem";
    lit "sep";
    lit "set";
    lit "utc";
    lit "vie";
    lit "am";
    lit "de";
    lit "do";
    lit "en";
    lit "ju";
    lit "lu";
    lit "mi";
    lit "pm";
    lit "sa";
    lit "vi";
    lit " ";
    lit "'";
    lit "+";
    lit ",";
    lit "-";
    lit ".";
    lit "/";
    lit ":";
    lit ";";
    lit "@";
    lit "[";
    lit "]";
    lit "a";
    lit "d";
    lit "h";
    lit "m";
    lit "s";
    lit "y";
    lit "z";
    lit "|"] |}.
Definition loc_es_MX : locale := merge loc_es own_es_MX.

(** es.go:323-326 *)
Definition own_es_NI : locale := Eval vm_compute in
  {| ld_name := lit "es-NI"; ld_order := lit "DMY"; ld_nospacing := false; ld_splitter := 0;
    ld_charset := runes (lit "");
    ld_abbr := [];
    ld_simpl := [];
    ld_trans := [];
    ld_reltype := [];
    ld_relrx := [];
    ld_rx := None;
    ld_rx_exact := None;
    ld_known := [] |}.
Definition loc_es_NI : locale := merge loc_es own_es_NI.

(** es.go:328-331 *)
Definition own_es_PA : locale := Eval vm_compute in
  {| ld_name := lit "es-PA"; ld_order := lit "MDY"; ld_nospacing := false; ld_splitter := 0;
    ld_charset := runes (lit "");
    ld_abbr := [];
    ld_simpl := [];
    ld_trans := [];
    ld_reltype := [];
    ld_relrx := [];
    ld_rx := None;
    ld_rx_exact := None;
    ld_known := [] |}.
Definition loc_es_PA : locale := merge loc_es own_es_PA.

(** es.go:333-336 *)
Definition own_es_PE : locale := Eval vm_compute in
  {| ld_name := lit "es-PE"; ld_order := lit "DMY"; ld_nospacing := false; ld_splitter := 0;
    ld_charset := runes (lit "");
    ld_abbr := [];
    ld_simpl := [];
    ld_trans := [];
    ld_reltype := [];
    ld_relrx := [];
    ld_rx := None;
    ld_rx_exact := None;
    ld_known := [] |}.
Definition loc_es_PE : locale := merge loc_es own_es_PE.

(** es.go:338-341 *)
Definition own_es_PH : locale := Eval vm_compute in
  {| ld_name := lit "es-PH"; ld_order := lit "DMY"; ld_nospacing := false; ld_splitter := 0;
    ld_charset := runes (lit "");
    ld_abbr := [];
    ld_simpl := [];
    ld_trans := [];
    ld_reltype := [];
    ld_relrx := [];
    ld_rx := None;
    ld_rx_exact := None;
    ld_known := [] |}.
Definition loc_es_PH : locale := merge loc_es own_es_PH.

(** es.go:343-346 *)
Definition own_es_PR : locale := Eval vm_compute in
  {| ld_name := lit "es-PR"; ld_order := lit "MDY"; ld_nospacing := false; ld_splitter := 0;
    ld_charset := runes (lit "");
    ld_abbr := [];
    ld_simpl := [];
    ld_trans := [];
    ld_reltype := [];
    ld_relrx := [];
    ld_rx := None;
    ld_rx_exact := None;
    ld_known := [] |}.
Definition loc_es_PR : locale := merge loc_es own_es_PR.

(** es.go:348-361 *)
Definition own_es_PY : locale := Eval vm_compute in
  {| ld_name := lit "es-PY"; ld_order := lit "DMY"; ld_nospacing := false; ld_splitter := 0;
    ld_charset := runes (lit "");
    ld_abbr := [];
    ld_simpl := [];
    ld_trans := [(lit "seg", [lit "second"])];
    ld_reltype := [];
    ld_relrx := [(rx "(?i)dentro de (\d+[.,]?\d*) seg", lit "in $1 second");
    (rx "(?i)hace (\d+[.,]?\d*) seg", lit "$1 second ago")];
    ld_rx := Some (rx "(?i)(\A|[^\pL\pM\d]|_)(dentro de \d+[.,]?\d* segundos|dentro de \d+[.,]?\d* minutos|dentro de \d+[.,]?\d* segundo|dentro de \d+[.,]?\d* semanas|dentro de \d+[.,]?\d* minuto|dentro de \d+[.,]?\d* semana|dentro de \d+[.,]?\d* horas|dentro de \d+[.,]?\d* meses|dentro de \d+[.,]?\d* anos|dentro de \d+[.,]?\d* dias|dentro de \d+[.,]?\d* hora|dentro de \d+[.,]?\d* ano|dentro de \d+[.,]?\d* dia|dentro de \d+[.,]?\d* mes|dentro de \d+[.,]?\d* min|dentro de \d+[.,]?\d* seg|dentro de \d+[.,]?\d* sem|hace \d+[.,]?\d* segundos|hace \d+[.,]?\d* minutos|hace \d+[.,]?\d* segundo|hace \d+[.,]?\d* semanas|dentro de \d+[.,]?\d* a|dentro de \d+[.,]?\d* h|dentro de \d+[.,]?\d* m|dentro de \d+[.,]?\d* s|hace \d+[.,]?\d* minuto|hace \d+[.,]?\d* semana|hace \d+[.,]?\d* horas|hace \d+[.,]?\d* meses|hace \d+[.,]?\d* anos|hace \d+[.,]?\d* dias|hace \d+[.,]?\d* hora|hace \d+[.,]?\d* ano|hace \d+[.,]?\d* dia|hace \d+[.,]?\d* mes|hace \d+[.,]?\d* min|hace \d+[.,]?\d* seg|hace \d+[.,]?\d* sem|hace \d+[.,]?\d* a|hace \d+[.,]?\d* h|hace \d+[.,]?\d* m|hace \d+[.,]?\d* s)(\z|[^\pL\pM\d]|_)");
    ld_rx_exact := Some (rx "(?i)^(dentro de \d+[.,]?\d* segundos|dentro de \d+[.,]?\d* minutos|dentro de \d+[.,]?\d* segundo|dentro de \d+[.,]?\d* semanas|dentro de \d+[.,]?\d* minuto|dentro de \d+[.,]?\d* semana|dentro de \d+[.,]?\d* horas|dentro de \d+[.,]?\d* meses|dentro de \d+[.,]?\d* anos|dentro de \d+[.,]?\d* dias|dentro de \d+[.,]?\d* hora|dentro de \d+[.,]?\d* ano|dentro de \d+[.,]?\d* dia|dentro de \d+[.,]?\d* mes|dentro de \d+[.,]?\d* min|dentro de \d+[.,]?\d* seg|dentro de \d+[.,]?\d* sem|hace \d+[.,]?\d* segundos|hace \d+[.,]?\d* minutos|hace \d+[.,]?\d* segundo|hace \d+[.,]?\d* semanas|dentro de \d+[.,]?\d* a|dentro de \d+[.,]?\d* h|dentro de \d+[.,]?\d* m|dentro de \d+[.,]?\d* s|hace \d+[.,]?\d* minuto|hace \d+[.,]?\d* semana|hace \d+[.,]?\d* horas|hace \d+[.,]?\d* meses|hace \d+[.,]?\d* anos|hace \d+[.,]?\d* dias|hace \d+[.,]?\d* hora|hace \d+[.,]?\d* ano|hace \d+[.,]?\d* dia|hace \d+[.,]?\d* mes|hace \d+[.,]?\d* min|hace \d+[.,]?\d* seg|hace \d+[.,]?\d* sem|hace \d+[.,]?\d* a|hace \d+[.,]?\d* h|hace \d+[.,]?\d* m|hace \d+[.,]?\d* s)$");
    ld_known := [lit "la proxima semana";
    lit "la semana pasada";
    lit "el proximo ano";
    lit "el proximo mes";
    lit "el ano pasado";
    lit "el mes pasado";
    lit "esta semana";
    lit "este minuto";
    lit "septiembre";
    lit "diciembre";
    lit "esta hora";
    lit "miercoles";
    lit "noviembre";
    lit "setiembre";
    lit "anteayer";
    lit "este ano";
    lit "este mes";
    lit "segundos";
    lit "domingo";
    lit "febrero";
    lit "minutos";
    lit "octubre";
    lit "segundo";
    lit "semanas";
    lit "viernes";
    lit "agosto";
    lit "jueves";
    lit "manana";
    lit "martes";
    lit "minuto";
    lit "sabado";
    lit "semana";
    lit "a las";
    lit "abril";
    lit "ahora";
    lit "cerca";
    lit "enero";
    lit "horas";
    lit "julio";
    lit "junio";
    lit "lunes";
    lit "marzo";
    lit "meses";
    lit "anos";
    lit "ayer";
    lit "dias";
    lit "hace";
    lit "hora";
    lit "mayo";
    lit "sept";
    lit "abr";
    lit "ago";
    lit "ano";
    lit "del";
    lit "dia";
    lit "dic";
    lit "dom";
    lit "ene";
    lit "feb";
    lit "gmt";
    lit "hoy";
    lit "jue";
    lit "jul";
    lit "jun";
    lit "lun";
    lit "mar";
    lit "may";
    lit "mes";
    lit "mie";
    lit "min";
    lit "nov";
    lit "oct";
    lit "sab";
    lit "seg";
    lit "sem";
    lit "sep";
    lit "set";
    lit "utc";
    lit "vie";
    lit "am";
    lit "de";
    lit "do";
    lit "en";
    lit "ju";
    lit "lu";
    lit "mi";
    lit "pm";
    lit "sa";
    lit "vi";
    lit " ";
    lit "'";
    lit "+";
    lit ",";
    lit "-";
    lit ".";
    lit "/";
    lit ":";
    lit ";";
    lit "@";
    lit "[";
    lit "]";
    lit "a";
    lit "d";
    lit "h";
    lit "m";
    lit "s";
    lit "y";
    lit "z";
    lit "|"] |}.
Definition loc_es_PY : locale := merge loc_es own_es_PY.

(** es.go:363-366 *)
Definition own_es_SV : locale := Eval vm_compute in
  {| ld_name := lit "es-SV"; ld_order := lit "DMY"; ld_nospacing := false; ld_splitter := 0;
    ld_charset := runes (lit "");
    ld_abbr := [];
    ld_simpl := [];
    ld_trans := [];
    ld_reltype := [];
    ld_relrx := [];
    ld_rx := None;
    ld_rx_exact := None;
    ld_known := [] |}.
Definition loc_es_SV : locale := merge loc_es own_es_SV.

(** es.go:368-371 *)
Definition own_es_US : locale := Eval vm_compute in
  {| ld_name := lit "es-US"; ld_order := lit "DMY"; ld_nospacing := false; ld_splitter := 0;
    ld_charset := runes (lit "");
    ld_abbr := [];
    ld_simpl := [];
    ld_trans := [];
    ld_reltype := [];
    ld_relrx := [];
    ld_rx := None;
    ld_rx_exact := None;
    ld_known := [] |}.
Definition loc_es_US : locale := merge loc_es own_es_US.

(** es.go:373-376 *)
Definition own_es_UY : locale := Eval vm_compute in
  {| ld_name := lit "es-UY"; ld_order := lit "DMY"; ld_nospacing := false; ld_splitter := 0;
    ld_charset := runes (lit "");
    ld_abbr := [];
    ld_simpl := [];
    ld_trans := [];
    ld_reltype := [];
    ld_relrx := [];
    ld_rx := None;
    ld_rx_exact := None;
    ld_known := [] |}.
Definition loc_es_UY : locale := merge loc_es own_es_UY.

(** es.go:378-381 *)
Definition own_es_VE : locale := Eval vm_compute in
  {| ld_name := lit "es-VE"; ld_order := lit "DMY"; ld_nospacing := false; ld_splitter := 0;
    ld_charset := runes (lit "");
    ld_abbr := [];
    ld_simpl := [];
    ld_trans := [];
    ld_reltype := [];
    ld_relrx := [];
    ld_rx := None;
    ld_rx_exact := None;
    ld_known := [] |}.
Definition loc_es_VE : locale := merge loc_es own_es_VE.

(** et.go:12-134 *)
Definition loc_et : locale := Eval vm_compute in
  {| ld_name := lit "et"; ld_order := lit "DMY"; ld_nospacing := false; ld_splitter := 0;
    ld_charset := runes (lit "bcdeghijklnorstuvzäü");
    ld_abbr := [];
    ld_simpl := [];
    ld_trans := [(lit "detsember", [lit "december"]);
    (lit "esmaspaev", [lit "monday"]);
    (lit "kolmapaev", [lit "wednesday"]);
    (lit "neljapaev", [lit "thursday"]);
    (lit "september", [lit "september"]);
    (lit "teisipaev", [lit "tuesday"]);
    (lit "november", [lit "november"]);
    (lit "oktoober", [lit "october"]);
    (lit "puhapaev", [lit "sunday"]);
    (lit "veebruar", [lit "february"]);
    (lit "jaanuar", [lit "january"]);
    (lit "laupaev", [lit "saturday"]);
    (lit "aprill", [lit "april"]);
    (lit "august", [lit "august"]);
    (lit "sekund", [lit "second"]);
    (lit "aasta", [lit "year"]);
    (lit "juuli", [lit "july"]);
    (lit "juuni", [lit "june"]);
    (lit "marts", [lit "march"]);
    (lit "minut", [lit "minute"]);
    (lit "nadal", [lit "week"]);
    (lit "reede", [lit "friday"]);
    (lit "veebr", [lit "february"]);
    (lit "dets", [lit "december"]);
    (lit "jaan", [lit "january"]);
    (lit "paev", [lit "day"]);
    (lit "sept", [lit "september"]);
    (lit "tund", [lit "hour"]);
    (lit "apr", [lit "april"]);
    (lit "aug", [lit "august"]);
    (lit "gmt", [lit "gmt"]);
    (lit "kuu", [lit "month"]);
    (lit "mai", [lit "may"]);
    (lit "min", [lit "minute"]);
    (lit "nad", [lit "week"]);
    (lit "nov", [lit "november"]);
    (lit "okt", [lit "october"]);
    (lit "sek", [lit "second"]);
    (lit "utc", [lit "utc"]);
    (lit "am", [lit "am"]);
    (lit "pm", [lit "pm"]);
    (lit " ", [lit " "]);
    (lit "'", [lit ""]);
    (lit "+", [lit "+"]);
    (lit ",", [lit ""]);
    (lit "-", [lit "-"]);
    (lit ".", [lit "."]);
    (lit "/", [lit "/"]);
    (lit ":", [lit ":"]);
    (lit ";", [lit ""]);
    (lit "@", [lit ""]);
    (lit "[", [lit ""]);
    (lit "]", [lit ""]);
    (lit "a", [lit "year"]);
    (lit "e", [lit "monday"]);
    (lit "k", [lit "month"; lit "wednesday"]);
    (lit "l", [lit "saturday"]);
    (lit "n", [lit "thursday"]);
    (lit "p", [lit "day"; lit "sunday"]);
    (lit "r", [lit "friday"]);
    (lit "s", [lit "second"]);
    (lit "t", [lit "hour"; lit "tuesday"]);
    (lit "z", [lit "z"]);
    (lit "|", [lit ""])];
    ld_reltype := [(lit "praegusel minutil", lit "0 minute ago");
    (lit "praegusel tunnil", lit "0 hour ago");
    (lit "jargmine aasta", lit "in 1 year");
    (lit "jargmine nadal", lit "in 1 week");
    (lit "kaesolev aasta", lit "0 year ago");
    (lit "kaesolev nadal", lit "0 week ago");
    (lit "eelmine aasta", lit "1 year ago");
    (lit "eelmine nadal", lit "1 week ago");
    (lit "jargmine kuu", lit "in 1 month");
    (lit "kaesolev kuu", lit "0 month ago");
    (lit "eelmine kuu", lit "1 month ago");
    (lit "homme", lit "in 1 day");
    (lit "eile", lit "1 day ago");
    (lit "nuud", lit "0 second ago");
    (lit "tana", lit "0 day ago")];
    ld_relrx := [(rx "(?i)(\d+[.,]?\d*) sekundi parast", lit "in $1 second");
    (rx "(?i)(\d+[.,]?\d*) minuti parast", lit "in $1 minute");
    (rx "(?i)(\d+[.,]?\d*) nadala parast", lit "in $1 week");
    (rx "(?i)(\d+[.,]?\d*) aasta parast", lit "in $1 year");
    (rx "(?i)(\d+[.,]?\d*) paeva parast", lit "in $1 day");
    (rx "(?i)(\d+[.,]?\d*) sekundi eest", lit "$1 second ago");
    (rx "(?i)(\d+[.,]?\d*) tunni parast", lit "in $1 hour");
    (rx "(?i)(\d+[.,]?\d*) minuti eest", lit "$1 minute ago");
    (rx "(?i)(\d+[.,]?\d*) nadala eest", lit "$1 week ago");
    (rx "(?i)(\d+[.,]?\d*) aasta eest", lit "$1 year ago");
    (rx "(?i)(\d+[.,]?\d*) kuu parast", lit "in $1 month");
    (rx "(?i)(\d+[.,]?\d*) min parast", lit "in $1 minute");
    (rx "(?i)(\d+[.,]?\d*) nad parast", lit "in $1 week");
    (rx "(?i)(\d+[.,]?\d*) paeva eest", lit "$1 day ago");
    (rx "(?i)(\d+[.,]?\d*) sek parast", lit "in $1 second");
    (rx "(?i)(\d+[.,]?\d*) tunni eest", lit "$1 hour ago");
    (rx "(?i)(\d+[.,]?\d*) a parast", lit "in $1 year");
    (rx "(?i)(\d+[.,]?\d*) k parast", lit "in $1 month");
    (rx "(?i)(\d+[.,]?\d*) kuu eest", lit "$1 month ago");
    (rx "(?i)(\d+[.,]?\d*) min eest", lit "$1 minute ago");
    (rx "(?i)(\d+[.,]?\d*) nad eest", lit "$1 week ago");
    (rx "(?i)(\d+[.,]?\d*) p parast", lit "in $1 day");
    (rx "(?i)(\d+[.,]?\d*) s parast", lit "in $1 second");
    (rx "(?i)(\d+[.,]?\d*) sek eest", lit "$1 second ago");
    (rx "(?i)(\d+[.,]?\d*) t parast", lit "in $1 hour");
    (rx "(?i)(\d+[.,]?\d*) a eest", lit "$1 year ago");
    (rx "(?i)(\d+[.,]?\d*) k eest", lit "$1 month ago");
    (rx "(?i)(\d+[.,]?\d*) p eest", lit "$1 day ago");
    (rx "(?i)(\d+[.,]?\d*) s eest", lit "$1 second ago");
    (rx "(?i)(\d+[.,]?\d*) t eest", lit "$1 hour ago")];
    ld_rx := Some (rx "(?i)(\A|[^\pL\pM\d]|_)(\d+[.,]?\d* sekundi parast|\d+[.,]?\d* minuti parast|\d+[.,]?\d* nadala parast|\d+[.,]?\d* aasta parast|\d+[.,]?\d* paeva parast|\d+[.,]?\d* sekundi eest|\d+[.,]?\d* tunni parast|\d+[.,]?\d* minuti eest|\d+[.,]?\d* nadala eest|\d+[.,]?\d* aasta eest|\d+[.,]?\d* kuu parast|\d+[.,]?\d* min parast|\d+[.,]?\d* nad parast|\d+[.,]?\d* paeva eest|\d+[.,]?\d* sek parast|\d+[.,]?\d* tunni eest|\d+[.,]?\d* a parast|\d+[.,]?\d* k parast|\d+[.,]?\d* kuu eest|\d+[.,]?\d* min eest|\d+[.,]?\d* nad eest|\d+[.,]?\d* p parast|\d+[.,]?\d* s parast|\d+[.,]?\d* sek eest|\d+[.,]?\d* t parast|\d+[.,]?\d* a eest|\d+[.,]?\d* k eest|\d+[.,]?\d* p eest|\d+[.,]?\d* s eest|\d+[.,]?\d* t eest)(\z|[^\pL\pM\d]|_)");
    ld_rx_exact := Some (rx "(?i)^(\d+[.,]?\d* sekundi parast|\d+[.,]?\d* minuti parast|\d+[.,]?\d* nadala parast|\d+[.,]?\d* aasta parast|\d+[.,]?\d* paeva parast|\d+[.,]?\d* sekundi eest|\d+[.,]?\d* tunni parast|\d+[.,]?\d* minuti eest|\d+[.,]?\d* nadala eest|\d+[.,]?\d* aasta eest|\d+[.,]?\d* kuu parast|\d+[.,]?\d* min parast|\d+[.,]?\d* nad parast|\d+[.,]?\d* paeva eest|\d+[.,]?\d* sek parast|\d+[.,]?\d* tunni eest|\d+[.,]?\d* a parast|\d+[.,]?\d* k parast|\d+[.,]?\d* kuu eest|\d+[.,]?\d* min eest|\d+[.,]?\d* nad eest|\d+[.,]?\d* p parast|\d+[.,]?\d* s parast|\d+[.,]?\d* sek eest|\d+[.,]?\d* t parast|\d+[.,]?\d* a eest|\d+[.,]?\d* k eest|\d+[.,]?\d* p eest|\d+[.,]?\d* s eest|\d+[.,]?\d* t eest)$");
    ld_known := [lit "praegusel minutil";
    lit "praegusel tunnil";
    lit "jargmine aasta";
    lit "jargmine nadal";
    lit "kaesolev aasta";
    lit "kaesolev nadal";
    lit "eelmine aasta";
    lit "eelmine nadal";
    lit "jargmine kuu";
    lit "kaesolev kuu";
    lit "eelmine kuu";
    lit "detsember";
    lit "esmaspaev";
    lit "kolmapaev";
    lit "neljapaev";
    lit "september";
    lit "teisipaev";
    lit "november";
    lit "oktoober";
    lit "puhapaev";
    lit "veebruar";
    lit "jaanuar";
    lit "laupaev";
    lit "aprill";
    lit "august";
    lit "sekund";
    lit "aasta";
    lit "homme";
    lit "juuli";
    lit "juuni";
    lit "marts";
    lit "minut";
    lit "nadal";
    lit "reede";
    lit "veebr";
    lit "dets";
    lit "eile";
    lit "jaan";
    lit "nuud";
    lit "paev";
    lit "sept";
    lit "tana";
    lit "tund";
    lit "apr";
    lit "aug";
    lit "gmt";
    lit "kuu";
    lit "mai";
    lit "min";
    lit "nad";
    lit "nov";
    lit "okt";
    lit "sek";
    lit "utc";
    lit "am";
    lit "pm";
    lit " ";
    lit "'";
    lit "+";
    lit ",";
    lit "-";
    lit ".";
    lit "/";
    lit ":";
    lit ";";
    lit "@";
    lit "[";
    lit "]";
    lit "a";
    lit "e";
    lit "k";
    lit "l";
    lit "n";
    lit "p";
    lit "r";
    lit "s";
    lit "t";
    lit "z";
    lit "|"] |}.

(** eu.go:12-123 *)
Definition loc_eu : locale := Eval vm_compute in
  {| ld_name := lit "eu"; ld_order := lit "YMD"; ld_nospacing := false; ld_splitter := 0;
    ld_charset := runes (lit "bcdeghiklnorstuxz");
    ld_abbr := [];
    ld_simpl := [];
    ld_trans := [(lit "asteazkena", [lit "wednesday"]);
    (lit "astelehena", [lit "monday"]);
    (lit "asteartea", [lit "tuesday"]);
    (lit "hilabetea", [lit "month"]);
    (lit "larunbata", [lit "saturday"]);
    (lit "urtarrila", [lit "january"]);
    (lit "osteguna", [lit "thursday"]);
    (lit "ostirala", [lit "friday"]);
    (lit "segundoa", [lit "second"]);
    (lit "abendua", [lit "december"]);
    (lit "abuztua", [lit "august"]);
    (lit "apirila", [lit "april"]);
    (lit "igandea", [lit "sunday"]);
    (lit "maiatza", [lit "may"]);
    (lit "martxoa", [lit "march"]);
    (lit "minutua", [lit "minute"]);
    (lit "otsaila", [lit "february"]);
    (lit "uztaila", [lit "july"]);
    (lit "azaroa", [lit "november"]);
    (lit "ekaina", [lit "june"]);
    (lit "iraila", [lit "september"]);
    (lit "astea", [lit "week"]);
    (lit "eguna", [lit "day"]);
    (lit "ordua", [lit "hour"]);
    (lit "urria", [lit "october"]);
    (lit "urtea", [lit "year"]);
    (lit "abe", [lit "december"]);
    (lit "abu", [lit "august"]);
    (lit "api", [lit "april"]);
    (lit "ast", [lit "week"]);
    (lit "aza", [lit "november"]);
    (lit "eka", [lit "june"]);
    (lit "gmt", [lit "gmt"]);
    (lit "hil", [lit "month"]);
    (lit "ira", [lit "september"]);
    (lit "mai", [lit "may"]);
    (lit "mar", [lit "march"]);
    (lit "min", [lit "minute"]);
    (lit "ots", [lit "february"]);
    (lit "urr", [lit "october"]);
    (lit "urt", [lit "january"]);
    (lit "utc", [lit "utc"]);
    (lit "uzt", [lit "july"]);
    (lit "al", [lit "monday"]);
    (lit "am", [lit "am"]);
    (lit "ar", [lit "tuesday"]);
    (lit "az", [lit "wednesday"]);
    (lit "eg", [lit "day"]);
    (lit "ig", [lit "sunday"]);
    (lit "lr", [lit "saturday"]);
    (lit "og", [lit "thursday"]);
    (lit "or", [lit "friday"]);
    (lit "pm", [lit "pm"]);
    (lit " ", [lit " "]);
    (lit "'", [lit ""]);
    (lit "+", [lit "+"]);
    (lit ",", [lit ""]);
    (lit "-", [lit "-"]);
    (lit ".", [lit "."]);
    (lit "/", [lit "/"]);
    (lit ":", [lit ":"]);
    (lit ";", [lit ""]);
    (lit "@", [lit ""]);
    (lit "[", [lit ""]);
    (lit "]", [lit ""]);
    (lit "h", [lit "hour"]);
    (lit "s", [lit "second"]);
    (lit "z", [lit "z"]);
    (lit "|", [lit ""])];
    ld_reltype := [(lit "hurrengo hilabetea", lit "in 1 month");
    (lit "aurreko hilabetea", lit "1 month ago");
    (lit "hurrengo astea", lit "in 1 week");
    (lit "hurrengo urtea", lit "in 1 year");
    (lit "minutu honetan", lit "0 minute ago");
    (lit "aurreko astea", lit "1 week ago");
    (lit "aurreko urtea", lit "1 year ago");
    (lit "hilabete hau", lit "0 month ago");
    (lit "ordu honetan", lit "0 hour ago");
    (lit "aste hau", lit "0 week ago");
    (lit "aurten", lit "0 year ago");
    (lit "bihar", lit "in 1 day");
    (lit "orain", lit "0 second ago");
    (lit "atzo", lit "1 day ago");
    (lit "gaur", lit "0 day ago")];
    ld_relrx := [(rx "(?i)(\d+[.,]?\d*) hilabete barru", lit "in $1 month");
    (rx "(?i)duela (\d+[.,]?\d*) hilabete", lit "$1 month ago");
    (rx "(?i)(\d+[.,]?\d*) segundo barru", lit "in $1 second");
    (rx "(?i)duela (\d+[.,]?\d*) segundo", lit "$1 second ago");
    (rx "(?i)(\d+[.,]?\d*) minutu barru", lit "in $1 minute");
    (rx "(?i)duela (\d+[.,]?\d*) minutu", lit "$1 minute ago");
    (rx "(?i)(\d+[.,]?\d*) aste barru", lit "in $1 week");
    (rx "(?i)(\d+[.,]?\d*) egun barru", lit "in $1 day");
    (rx "(?i)(\d+[.,]?\d*) ordu barru", lit "in $1 hour");
    (rx "(?i)(\d+[.,]?\d*) urte barru", lit "in $1 year");
    (rx "(?i)duela (\d+[.,]?\d*) aste", lit "$1 week ago");
    (rx "(?i)duela (\d+[.,]?\d*) egun", lit "$1 day ago");
    (rx "(?i)duela (\d+[.,]?\d*) ordu", lit "$1 hour ago");
    (rx "(?i)duela (\d+[.,]?\d*) urte", lit "$1 year ago")];
    ld_rx := Some (rx "(?i)(\A|[^\pL\pM\d]|_)(\d+[.,]?\d* hilabete barru|duela \d+[.,]?\d* hilabete|\d+[.,]?\d* segundo barru|duela \d+[.,]?\d* segundo|\d+[.,]?\d* minutu barru|duela \d+[.,]?\d* minutu|\d+[.,]?\d* aste barru|\d+[.,]?\d* egun barru|\d+[.,]?\d* ordu barru|\d+[.,]?\d* urte barru|duela \d+[.,]?\d* aste|duela \d+[.,]?\d* egun|duela \d+[.,]?\d* ordu|duela \d+[.,]?\d* urte)(\z|[^\pL\pM\d]|_)");
    ld_rx_exact := Some (rx "(?i)^(\d+[.,]?\d* hilabete barru|duela \d+[.,]?\d* hilabete|\d+[.,]?\d* segundo barru|duela \d+[.,]?\d* segundo|\d+[.,]?\d* minutu barru|duela \d+[.,]?\d* minutu|\d+[.,]?\d* aste barru|\d+[.,]?\d* egun barru|\d+[.,]?\d* ordu barru|\d+[.,]?\d* urte barru|duela \d+[.,]?\d* aste|duela \d+[.,]?\d* egun|duela \d+[.,]?\d* ordu|duela \d+[.,]?\d* urte)$");
    ld_known := [lit "hurrengo hilabetea";
    lit "aurreko hilabetea";
    lit "hurrengo astea";
    lit "hurrengo urtea";
    lit "minutu honetan";
    lit "aurreko astea";
    lit "aurreko urtea";
    lit "hilabete hau";
    lit "ordu honetan";
    lit "asteazkena";
    lit "astelehena";
    lit "asteartea";
    lit "hilabetea";
    lit "larunbata";
    lit "urtarrila";
    lit "aste hau";
    lit "osteguna";
    lit "ostirala";
    lit "segundoa";
    lit "abendua";
    lit "abuztua";
    lit "apirila";
    lit "igandea";
    lit "maiatza";
    lit "martxoa";
    lit "minutua";
    lit "otsaila";
    lit "uztaila";
    lit "aurten";
    lit "azaroa";
    lit "ekaina";
    lit "iraila";
    lit "astea";
    lit "bihar";
    lit "eguna";
    lit "orain";
    lit "ordua";
    lit "urria";
    lit "urtea";
    lit "atzo";
    lit "gaur";
    lit "abe";
    lit "abu";
    lit "api";
    lit "ast";
    lit "aza";
    lit "eka";
    lit "gmt";
    lit "hil";
    lit "ira";
    lit "mai";
    lit "mar";
    lit "min";
    lit "ots";
    lit "urr";
    lit "urt";
    lit "utc";
    lit "uzt";
    lit "al";
    lit "am";
    lit "ar";
    lit "az";
    lit "eg";
    lit "ig";
    lit "lr";
    lit "og";
    lit "or";
    lit "pm";
    lit " ";
    lit "'";
    lit "+";
    lit ",";
    lit "-";
    lit ".";
    lit "/";
    lit ":";
    lit ";";
    lit "@";
    lit "[";
    lit "]";
    lit "h";
    lit "s";
    lit "z";
    lit "|"] |}.

(** ewo.go:10-98 *)
Definition loc_ewo : locale := Eval vm_compute in
  {| ld_name := lit "ewo"; ld_order := lit "DMY"; ld_nospacing := false; ld_splitter := 0;
    ld_charset := runes (lit "bcdefghiklnorstuwxyzáéíóúǒɔəɛ̀́̌");
    ld_abbr := [];
    ld_simpl := [];
    ld_trans := [(lit "ngɔn awom ai dzia", [lit "november"]);
    (lit "sɔndɔ məlu mənyi", [lit "thursday"]);
    (lit "ngɔn awom ai bɛ", [lit "december"]);
    (lit "sɔndɔ məlu məbɛ", [lit "tuesday"]);
    (lit "sɔndɔ məlu məlɛ", [lit "wednesday"]);
    (lit "ngɔn zamgbala", [lit "july"]);
    (lit "ngɔn saməna", [lit "june"]);
    (lit "ngɔn ebulu", [lit "september"]);
    (lit "ngɔn nyina", [lit "april"]);
    (lit "ngɔn awom", [lit "october"]);
    (lit "ngɔn lala", [lit "march"]);
    (lit "ngɔn mwom", [lit "august"]);
    (lit "ngɔn tana", [lit "may"]);
    (lit "ngəgogəle", [lit "pm"]);
    (lit "ngɔn osu", [lit "january"]);
    (lit "akabəga", [lit "second"]);
    (lit "kikirig", [lit "am"]);
    (lit "ngɔn bɛ", [lit "february"]);
    (lit "enutɛn", [lit "minute"]);
    (lit "fulade", [lit "friday"]);
    (lit "serade", [lit "saturday"]);
    (lit "awola", [lit "hour"]);
    (lit "mɔndi", [lit "monday"]);
    (lit "sɔndɔ", [lit "week"; lit "sunday"]);
    (lit "amos", [lit "day"]);
    (lit "ngab", [lit "december"]);
    (lit "ngad", [lit "november"]);
    (lit "ngɔn", [lit "month"]);
    (lit "ful", [lit "friday"]);
    (lit "gmt", [lit "gmt"]);
    (lit "mbu", [lit "year"]);
    (lit "mɔn", [lit "monday"]);
    (lit "nga", [lit "october"]);
    (lit "ngb", [lit "february"]);
    (lit "nge", [lit "september"]);
    (lit "ngl", [lit "march"]);
    (lit "ngm", [lit "august"]);
    (lit "ngn", [lit "april"]);
    (lit "ngo", [lit "january"]);
    (lit "ngs", [lit "june"]);
    (lit "ngt", [lit "may"]);
    (lit "ngz", [lit "july"]);
    (lit "ser", [lit "saturday"]);
    (lit "smb", [lit "tuesday"]);
    (lit "sml", [lit "wednesday"]);
    (lit "smn", [lit "thursday"]);
    (lit "sɔn", [lit "sunday"]);
    (lit "utc", [lit "utc"]);
    (lit "am", [lit "am"]);
    (lit "pm", [lit "pm"]);
    (lit " ", [lit " "]);
    (lit "'", [lit ""]);
    (lit "+", [lit "+"]);
    (lit ",", [lit ""]);
    (lit "-", [lit "-"]);
    (lit ".", [lit "."]);
    (lit "/", [lit "/"]);
    (lit ":", [lit ":"]);
    (lit ";", [lit ""]);
    (lit "@", [lit ""]);
    (lit "[", [lit ""]);
    (lit "]", [lit ""]);
    (lit "z", [lit "z"]);
    (lit "|", [lit ""])];
    ld_reltype := [(lit "this minute", lit "0 minute ago");
    (lit "last month", lit "1 month ago");
    (lit "next month", lit "in 1 month");
    (lit "this month", lit "0 month ago");
    (lit "last week", lit "1 week ago");
    (lit "last year", lit "1 year ago");
    (lit "next week", lit "in 1 week");
    (lit "next year", lit "in 1 year");
    (lit "this hour", lit "0 hour ago");
    (lit "this week", lit "0 week ago");
    (lit "this year", lit "0 year ago");
    (lit "angoge", lit "1 day ago");
    (lit "okiri", lit "in 1 day");
    (lit "ana", lit "0 day ago");
    (lit "now", lit "0 second ago")];
    ld_relrx := [];
    ld_rx := None;
    ld_rx_exact := None;
    ld_known := [lit "ngɔn awom ai dzia";
    lit "sɔndɔ məlu mənyi";
    lit "ngɔn awom ai bɛ";
    lit "sɔndɔ məlu məbɛ";
    lit "sɔndɔ məlu məlɛ";
    lit "ngɔn zamgbala";
    lit "ngɔn saməna";
    lit "this minute";
    lit "last month";
    lit "next month";
    lit "ngɔn ebulu";
    lit "ngɔn nyina";
    lit "this month";
    lit "last week";
    lit "last year";
    lit "next week";
    lit "next year";
    lit "ngɔn awom";
    lit "ngɔn lala";
    lit "ngɔn mwom";
    lit "ngɔn tana";
    lit "ngəgogəle";
    lit "this hour";
    lit "this week";
    lit "this year";
    lit "ngɔn osu";
    lit "akabəga";
    lit "kikirig";
    lit "ngɔn bɛ";
    lit "angoge";
    lit "enutɛn";
    lit "fulade";
    lit "serade";
    lit "awola";
    lit "mɔndi";
    lit "okiri";
    lit "sɔndɔ";
    lit "amos";
    lit "ngab";
    lit "ngad";
    lit "ngɔn";
    lit "ana";
    lit "ful";
    lit "gmt";
    lit "mbu";
    lit "mɔn";
    lit "nga";
    lit "ngb";
    lit "nge";
    lit "ngl";
    lit "ngm";
    lit "ngn";
    lit "ngo";
    lit "ngs";
    lit "ngt";
    lit "ngz";
    lit "now";
    lit "ser";
    lit "smb";
    lit "sml";
    lit "smn";
    lit "sɔn";
    lit "utc";
    lit "am";
    lit "pm";
    lit " ";
    lit "'";
    lit "+";
    lit ",";
    lit "-";
    lit ".";
    lit "/";
    lit ":";
    lit ";";
    lit "@";
    lit "[";
    lit "]";
    lit "z";
    lit "|"] |}.

(** fa.go:13-126 *)
Definition loc_fa : locale := Eval vm_compute in
  {| ld_name := lit "fa"; ld_order := lit "YMD"; ld_nospacing := false; ld_splitter := 6;
    ld_charset := runes (lit "cgtuzآئابتثجدذرزسشظعفقلمنهوئپچژکگی‌");
    ld_abbr := [];
    ld_simpl := [];
    ld_trans := [(lit "قبل‌ازظهر", [lit "am"]);
    (lit "چهار شنبه", [lit "wednesday"]);
    (lit "بعدازظهر", [lit "pm"]);
    (lit "روز شنبه", [lit "saturday"]);
    (lit "پنج شنبه", [lit "thursday"]);
    (lit "چهارشنبه", [lit "wednesday"]);
    (lit "دو شنبه", [lit "saturday"]);
    (lit "سه‌شنبه", [lit "tuesday"]);
    (lit "سپتامبر", [lit "september"]);
    (lit "پنجشنبه", [lit "thursday"]);
    (lit "اکتوبر", [lit "october"]);
    (lit "دسامبر", [lit "december"]);
    (lit "دوشنبه", [lit "monday"]);
    (lit "سهشنبه", [lit "tuesday"]);
    (lit "سپتمبر", [lit "september"]);
    (lit "فبروری", [lit "february"]);
    (lit "نوامبر", [lit "november"]);
    (lit "ژانویه", [lit "january"]);
    (lit "یکشنبه", [lit "sunday"]);
    (lit "اوریل", [lit "april"]);
    (lit "اپریل", [lit "april"]);
    (lit "اکتبر", [lit "october"]);
    (lit "ثانیه", [lit "second"]);
    (lit "جنوری", [lit "january"]);
    (lit "جولای", [lit "july"]);
    (lit "دسمبر", [lit "december"]);
    (lit "دقیقه", [lit "minute"]);
    (lit "فوریه", [lit "february"]);
    (lit "نومبر", [lit "november"]);
    (lit "ژويیه", [lit "july"]);
    (lit "اگست", [lit "august"]);
    (lit "جمعه", [lit "friday"]);
    (lit "ساعت", [lit "hour"]);
    (lit "شنبه", [lit "saturday"]);
    (lit "مارس", [lit "march"]);
    (lit "مارچ", [lit "march"]);
    (lit "هفته", [lit "week"]);
    (lit "ژوين", [lit "june"]);
    (lit "gmt", [lit "gmt"]);
    (lit "utc", [lit "utc"]);
    (lit "اوت", [lit "august"]);
    (lit "جون", [lit "june"]);
    (lit "دوم", [lit "second"]);
    (lit "روز", [lit "day"]);
    (lit "سال", [lit "year"]);
    (lit "ماه", [lit "month"]);
    (lit "پیش", [lit "ago"]);
    (lit "am", [lit "am"]);
    (lit "pm", [lit "pm"]);
    (lit "بظ", [lit "pm"]);
    (lit "در", [lit "in"]);
    (lit "قظ", [lit "am"]);
    (lit "مه", [lit "may"]);
    (lit "می", [lit "may"]);
    (lit " ", [lit " "]);
    (lit "'", [lit ""]);
    (lit "+", [lit "+"]);
    (lit ",", [lit ""]);
    (lit "-", [lit "-"]);
    (lit ".", [lit "."]);
    (lit "/", [lit "/"]);
    (lit ":", [lit ":"]);
    (lit ";", [lit ""]);
    (lit "@", [lit ""]);
    (lit "[", [lit ""]);
    (lit "]", [lit ""]);
    (lit "z", [lit "z"]);
    (lit "|", [lit ""]);
    (lit "د", [lit "saturday"])];
    ld_reltype := [(lit "هفته اینده", lit "in 1 week");
    (lit "هفته گذشته", lit "1 week ago");
    (lit "همین دقیقه", lit "0 minute ago");
    (lit "سال اینده", lit "in 1 year");
    (lit "سال گذشته", lit "1 year ago");
    (lit "ماه اینده", lit "in 1 month");
    (lit "ماه گذشته", lit "1 month ago");
    (lit "همین ساعت", lit "0 hour ago");
    (lit "این هفته", lit "0 week ago");
    (lit "این ماه", lit "0 month ago");
    (lit "ماه پیش", lit "1 month ago");
    (lit "امروز", lit "0 day ago");
    (lit "امسال", lit "0 year ago");
    (lit "اکنون", lit "0 second ago");
    (lit "دیروز", lit "1 day ago");
    (lit "فردا", lit "in 1 day")];
    ld_relrx := [(rx "(?i)(\d+[.,]?\d*) ثانیه بعد", lit "in $1 second");
    (rx "(?i)(\d+[.,]?\d*) ثانیه پیش", lit "$1 second ago");
    (rx "(?i)(\d+[.,]?\d*) دقیقه بعد", lit "in $1 minute");
    (rx "(?i)(\d+[.,]?\d*) دقیقه پیش", lit "$1 minute ago");
    (rx "(?i)(\d+[.,]?\d*) ساعت بعد", lit "in $1 hour");
    (rx "(?i)(\d+[.,]?\d*) ساعت پیش", lit "$1 hour ago");
    (rx "(?i)(\d+[.,]?\d*) هفته بعد", lit "in $1 week");
    (rx "(?i)(\d+[.,]?\d*) هفته پیش", lit "$1 week ago");
    (rx "(?i)(\d+[.,]?\d*) روز بعد", lit "in $1 day");
    (rx "(?i)(\d+[.,]?\d*) روز پیش", lit "$1 day ago");
    (rx "(?i)(\d+[.,]?\d*) سال بعد", lit "in $1 year");
    (rx "(?i)(\d+[.,]?\d*) سال پیش", lit "$1 year ago");
    (rx "(?i)(\d+[.,]?\d*) ماه بعد", lit "in $1 month");
    (rx "(?i)(\d+[.,]?\d*) ماه پیش", lit "$1 month ago")];
    ld_rx := Some (rx "(?i)(\A|[^\pL\pM\d]|_)(\d+[.,]?\d* ثانیه بعد|\d+[.,]?\d* ثانیه پیش|\d+[.,]?\d* دقیقه بعد|\d+[.,]?\d* دقیقه پیش|\d+[.,]?\d* ساعت بعد|\d+[.,]?\d* ساعت پیش|\d+[.,]?\d* هفته بعد|\d+[.,]?\d* هفته پیش|\d+[.,]?\d* روز بعد|\d+[.,]?\d* روز پیش|\d+[.,]?\d* سال بعد|\d+[.,]?\d* سال پیش|\d+[.,]?\d* ماه بعد|\d+[.,]?\d* ماه پیش)(\z|[^\pL\pM\d]|_)");
    ld_rx_exact := Some (rx "(?i)^(\d+[.,]?\d* ثانیه بعد|\d+[.,]?\d* ثانیه پیش|\d+[.,]?\d* دقیقه بعد|\d+[.,]?\d* دقیقه پیش|\d+[.,]?\d* ساعت بعد|\d+[.,]?\d* ساعت پیش|\d+[.,]?\d* هفته بعد|\d+[.,]?\d* هفته پیش|\d+[.,]?\d* روز بعد|\d+[.,]?\d* روز پیش|\d+[.,]?\d* سال بعد|\d+[.,]?\d* سال پیش|\d+[.,]?\d* ماه بعد|\d+[.,]?\d* ماه پیش)$");
    ld_known := [lit "هفته اینده";
    lit "هفته گذشته";
    lit "همین دقیقه";
    lit "سال اینده";
    lit "سال گذشته";
    lit "قبل‌ازظهر";
    lit "ماه اینده";
    lit "ماه گذشته";
    lit "همین ساعت";
    lit "چهار شنبه";
    lit "این هفته";
    lit "بعدازظهر";
    lit "روز شنبه";
    lit "پنج شنبه";
    lit "چهارشنبه";
    lit "این ماه";
    lit "دو شنبه";
    lit "سه‌شنبه";
    lit "سپتامبر";
    lit "ماه پیش";
    lit "پنجشنبه";
    lit "اکتوبر";
    lit "دسامبر";
    lit "دوشنبه";
    lit "سهشنبه";
    lit "سپتمبر";
    lit "فبروری";
    lit "نوامبر";
    lit "ژانویه";
    lit "یکشنبه";
    lit "امروز";
    lit "امسال";
    lit "اوریل";
    lit "اپریل";
    lit "اکتبر";
    lit "اکنون";
    lit "ثانیه";
    lit "جنوری";
    lit "جولای";
    lit "دسمبر";
    lit "دقیقه";
    lit "دیروز";
    lit "فوریه";
    lit "نومبر";
    lit "ژويیه";
    lit "اگست";
    lit "جمعه";
    lit "ساعت";
    lit "شنبه";
    lit "فردا";
    lit "مارس";
    lit "مارچ";
    lit "هفته";
    lit "ژوين";
    lit "gmt";
    lit "utc";
    lit "اوت";
    lit "جون";
    lit "دوم";
    lit "روز";
    lit "سال";
    lit "ماه";
    lit "پیش";
    lit "am";
    lit "pm";
    lit "بظ";
    lit "در";
    lit "قظ";
    lit "مه";
    lit "می";
    lit " ";
    lit "'";
    lit "+";
    lit ",";
    lit "-";
    lit ".";
    lit "/";
    lit ":";
    lit ";";
    lit "@";
    lit "[";
    lit "]";
    lit "z";
    lit "|";
    lit "د"] |}.

(** fa.go:128-137 *)
Definition own_fa_AF : locale := Eval vm_compute in
  {| ld_name := lit "fa-AF"; ld_order := lit "YMD"; ld_nospacing := false; ld_splitter := 0;
    ld_charset := runes (lit "");
    ld_abbr := [];
    ld_simpl := [];
    ld_trans := [(lit "جنو", [lit "january"]);
    (lit "جول", [lit "july"]);
    (lit "دسم", [lit "december"])];
    ld_reltype := [];
    ld_relrx := [];
    ld_rx := None;
    ld_rx_exact := None;
    ld_known := [lit "هفته اینده";
    lit "هفته گذشته";
    lit "همین دقیقه";
    lit "سال اینده";
    lit "سال گذشته";
    lit "قبل‌ازظهر";
    lit "ماه اینده";
    lit "ماه گذشته";
    lit "همین ساعت";
    lit "چهار شنبه";
    lit "این هفته";
    lit "بعدازظهر";
    lit "روز شنبه";
    lit "پنج شنبه";
    lit "چهارشنبه";
    lit "این ماه";
    lit "دو شنبه";
    lit "سه‌شنبه";
    lit "سپتامبر";
    lit "ماه پیش";
    lit "پنجشنبه";
    lit "اکتوبر";
    lit "دسامبر";
    lit "دوشنبه";
    lit "سهشنبه";
    lit "سپتمبر";
    lit "فبروری";
    lit "نوامبر";
    lit "ژانویه";
    lit "یکشنبه";
    lit "امروز";
    lit "امسال";
    lit "اوریل";
    lit "اپریل";
    lit "اکتبر";
    lit "اکنون";
    lit "ثانیه";
    lit "جنوری";
    lit "جولای";
    lit "دسمبر";
    lit "دقیقه";
    lit "دیروز";
    lit "فوریه";
    lit "نومبر";
    lit "ژويیه";
    lit "اگست";
    lit "جمعه";
    lit "ساعت";
    lit "شنبه";
    lit "فردا";
    lit "مارس";
    lit "مارچ";
    lit "هفته";
    lit "ژوين";
    lit "gmt";
    lit "utc";
    lit "اوت";
    lit "جنو";
    lit "جول";
    lit "جون";
    lit "دسم";
    lit "دوم";
    lit "روز";
    lit "سال";
    lit "ماه";
    lit "پیش";
    lit "am";
    lit "pm";
    lit "بظ";
    lit "در";
    lit "قظ";
    lit "مه";
    lit "می";
    lit " ";
    lit "'";
    lit "+";
    lit ",";
    lit "-";
    lit ".";
    lit "/";
    lit ":";
    lit ";";
    lit "@";
    lit "[";
    lit "]";
    lit "z";
    lit "|";
    lit "د"] |}.
Definition loc_fa_AF : locale := merge loc_fa own_fa_AF.

(** ff.go:13-102 *)
Definition loc_ff : locale := Eval vm_compute in
  {| ld_name := lit "ff"; ld_order := lit "DMY"; ld_nospacing := false; ld_splitter := 0;
    ld_charset := runes (lit "-bcdeghijklnorstuwxyzñŋƴɓɗ");
    ld_abbr := [];
    ld_simpl := [];
    ld_trans := [(lit "hoore-biir", [lit "saturday"]);
    (lit "naasaande", [lit "thursday"]);
    (lit "njeslaare", [lit "wednesday"]);
    (lit "hitaande", [lit "year"]);
    (lit "majaango", [lit "second"]);
    (lit "mawbaare", [lit "tuesday"]);
    (lit "yarkomaa", [lit "october"]);
    (lit "kikiiɗe", [lit "pm"]);
    (lit "yontere", [lit "week"]);
    (lit "aaɓnde", [lit "monday"]);
    (lit "duujal", [lit "may"]);
    (lit "mawnde", [lit "friday"]);
    (lit "nalnde", [lit "day"]);
    (lit "seeɗto", [lit "april"]);
    (lit "siilto", [lit "september"]);
    (lit "subaka", [lit "am"]);
    (lit "bowte", [lit "december"]);
    (lit "colte", [lit "february"]);
    (lit "hoƴom", [lit "minute"]);
    (lit "jolal", [lit "november"]);
    (lit "korse", [lit "june"]);
    (lit "lewru", [lit "month"]);
    (lit "mbooy", [lit "march"]);
    (lit "morso", [lit "july"]);
    (lit "siilo", [lit "january"]);
    (lit "waktu", [lit "hour"]);
    (lit "dewo", [lit "sunday"]);
    (lit "juko", [lit "august"]);
    (lit "aaɓ", [lit "monday"]);
    (lit "bow", [lit "december"]);
    (lit "col", [lit "february"]);
    (lit "dew", [lit "sunday"]);
    (lit "duu", [lit "may"]);
    (lit "gmt", [lit "gmt"]);
    (lit "hbi", [lit "saturday"]);
    (lit "jol", [lit "november"]);
    (lit "juk", [lit "august"]);
    (lit "kor", [lit "june"]);
    (lit "maw", [lit "tuesday"]);
    (lit "mbo", [lit "march"]);
    (lit "mor", [lit "july"]);
    (lit "mwd", [lit "friday"]);
    (lit "naa", [lit "thursday"]);
    (lit "nje", [lit "wednesday"]);
    (lit "see", [lit "april"]);
    (lit "sii", [lit "january"]);
    (lit "slt", [lit "september"]);
    (lit "utc", [lit "utc"]);
    (lit "yar", [lit "october"]);
    (lit "am", [lit "am"]);
    (lit "pm", [lit "pm"]);
    (lit " ", [lit " "]);
    (lit "'", [lit ""]);
    (lit "+", [lit "+"]);
    (lit ",", [lit ""]);
    (lit "-", [lit "-"]);
    (lit ".", [lit "."]);
    (lit "/", [lit "/"]);
    (lit ":", [lit ":"]);
    (lit ";", [lit ""]);
    (lit "@", [lit ""]);
    (lit "[", [lit ""]);
    (lit "]", [lit ""]);
    (lit "z", [lit "z"]);
    (lit "|", [lit ""])];
    ld_reltype := [(lit "this minute", lit "0 minute ago");
    (lit "last month", lit "1 month ago");
    (lit "next month", lit "in 1 month");
    (lit "this month", lit "0 month ago");
    (lit "last week", lit "1 week ago");
    (lit "last year", lit "1 year ago");
    (lit "next week", lit "in 1 week");
    (lit "next year", lit "in 1 year");
    (lit "this hour", lit "0 hour ago");
    (lit "this week", lit "0 week ago");
    (lit "this year", lit "0 year ago");
    (lit "hannde", lit "0 day ago");
    (lit "jaŋngo", lit "in 1 day");
    (lit "haŋki", lit "1 day ago");
    (lit "now", lit "0 second ago")];
    ld_relrx := [];
    ld_rx := None;
    ld_rx_exact := None;
    ld_known := [lit "this minute";
    lit "hoore-biir";
    lit "last month";
    lit "next month";
    lit "this month";
    lit "last week";
    lit "last year";
    lit "naasaande";
    lit "next week";
    lit "next year";
    lit "njeslaare";
    lit "this hour";
    lit "this week";
    lit "this year";
    lit "hitaande";
    lit "majaango";
    lit "mawbaare";
    lit "yarkomaa";
    lit "kikiiɗe";
    lit "yontere";
    lit "aaɓnde";
    lit "duujal";
    lit "hannde";
    lit "jaŋngo";
    lit "mawnde";
    lit "nalnde";
    lit "seeɗto";
    lit "siilto";
    lit "subaka";
    lit "bowte";
    lit "colte";
    lit "haŋki";
    lit "hoƴom";
    lit "jolal";
    lit "korse";
    lit "lewru";
    lit "mbooy";
    lit "morso";
    lit "siilo";
    lit "waktu";
    lit "dewo";
    lit "juko";
    lit "aaɓ";
    lit "bow";
    lit "col";
    lit "dew";
    lit "duu";
    lit "gmt";
    lit "hbi";
    lit "jol";
    lit "juk";
    lit "kor";
    lit "maw";
    lit "mbo";
    lit "mor";
    lit "mwd";
    lit "naa";
    lit "nje";
    lit "now";
    lit "see";
    lit "sii";
    lit "slt";
    lit "utc";
    lit "yar";
    lit "am";
    lit "pm";
    lit " ";
    lit "'";
    lit "+";
    lit ",";
    lit "-";
    lit ".";
    lit "/";
    lit ":";
    lit ";";
    lit "@";
    lit "[";
    lit "]";
    lit "z";
    lit "|"] |}.

(** ff.go:104-107 *)
Definition own_ff_CM : locale := Eval vm_compute in
  {| ld_name := lit "ff-CM"; ld_order := lit "DMY"; ld_nospacing := false; ld_splitter := 0;
    ld_charset := runes (lit "");
    ld_abbr := [];
    ld_simpl := [];
    ld_trans := [];
    ld_reltype := [];
    ld_relrx := [];
    ld_rx := None;
    ld_rx_exact := None;
    ld_known := [] |}.
Definition loc_ff_CM : locale := merge loc_ff own_ff_CM.

(** ff.go:109-112 *)
Definition own_ff_GN : locale := Eval vm_compute in
  {| ld_name := lit "ff-GN"; ld_order := lit "DMY"; ld_nospacing := false; ld_splitter := 0;
    ld_charset := runes (lit "");
    ld_abbr := [];
    ld_simpl := [];
    ld_trans := [];
    ld_reltype := [];
    ld_relrx := [];
    ld_rx := None;
    ld_rx_exact := None;
    ld_known := [] |}.
Definition loc_ff_GN : locale := merge loc_ff own_ff_GN.

(** ff.go:114-117 *)
Definition own_ff_MR : locale := Eval vm_compute in
  {| ld_name := lit "ff-MR"; ld_order := lit "DMY"; ld_nospacing := false; ld_splitter := 0;
    ld_charset := runes (lit "");
    ld_abbr := [];
    ld_simpl := [];
    ld_trans := [];
    ld_reltype := [];
    ld_relrx := [];
    ld_rx := None;
    ld_rx_exact := None;
    ld_known := [] |}.
Definition loc_ff_MR : locale := merge loc_ff own_ff_MR.

(** fil.go:12-125 *)
Definition loc_fil : locale := Eval vm_compute in
  {| ld_name := lit "fil"; ld_order := lit "MDY"; ld_nospacing := false; ld_splitter := 0;
    ld_charset := runes (lit "bcdeghiklnorstuwyz");
    ld_abbr := [];
    ld_simpl := [];
    ld_trans := [(lit "miyerkules", [lit "wednesday"]);
    (lit "disyembre", [lit "december"]);
    (lit "nobyembre", [lit "november"]);
    (lit "setyembre", [lit "september"]);
    (lit "biyernes", [lit "friday"]);
    (lit "huwebes", [lit "thursday"]);
    (lit "oktubre", [lit "october"]);
    (lit "pebrero", [lit "february"]);
    (lit "segundo", [lit "second"]);
    (lit "agosto", [lit "august"]);
    (lit "linggo", [lit "week"; lit "sunday"]);
    (lit "martes", [lit "tuesday"]);
    (lit "minuto", [lit "minute"]);
    (lit "sabado", [lit "saturday"]);
    (lit "abril", [lit "april"]);
    (lit "buwan", [lit "month"]);
    (lit "enero", [lit "january"]);
    (lit "hulyo", [lit "july"]);
    (lit "hunyo", [lit "june"]);
    (lit "lunes", [lit "monday"]);
    (lit "marso", [lit "march"]);
    (lit "araw", [lit "day"]);
    (lit "mayo", [lit "may"]);
    (lit "oras", [lit "hour"]);
    (lit "taon", [lit "year"]);
    (lit "abr", [lit "april"]);
    (lit "ago", [lit "august"]);
    (lit "biy", [lit "friday"]);
    (lit "dis", [lit "december"]);
    (lit "ene", [lit "january"]);
    (lit "gmt", [lit "gmt"]);
    (lit "hul", [lit "july"]);
    (lit "hun", [lit "june"]);
    (lit "huw", [lit "thursday"]);
    (lit "lin", [lit "sunday"]);
    (lit "lun", [lit "monday"]);
    (lit "mar", [lit "march"; lit "tuesday"]);
    (lit "may", [lit "may"]);
    (lit "min", [lit "minute"]);
    (lit "miy", [lit "wednesday"]);
    (lit "nob", [lit "november"]);
    (lit "okt", [lit "october"]);
    (lit "peb", [lit "february"]);
    (lit "sab", [lit "saturday"]);
    (lit "seg", [lit "second"]);
    (lit "set", [lit "september"]);
    (lit "utc", [lit "utc"]);
    (lit "am", [lit "am"]);
    (lit "pm", [lit "pm"]);
    (lit " ", [lit " "]);
    (lit "'", [lit ""]);
    (lit "+", [lit "+"]);
    (lit ",", [lit ""]);
    (lit "-", [lit "-"]);
    (lit ".", [lit "."]);
    (lit "/", [lit "/"]);
    (lit ":", [lit ":"]);
    (lit ";", [lit ""]);
    (lit "@", [lit ""]);
    (lit "[", [lit ""]);
    (lit "]", [lit ""]);
    (lit "z", [lit "z"]);
    (lit "|", [lit ""])];
    ld_reltype := [(lit "nakalipas na linggo", lit "1 week ago");
    (lit "susunod na linggo", lit "in 1 week");
    (lit "nakaraang linggo", lit "1 week ago");
    (lit "susunod na buwan", lit "in 1 month");
    (lit "nakaraang buwan", lit "1 month ago");
    (lit "sa linggong ito", lit "0 week ago");
    (lit "sa minutong ito", lit "0 minute ago");
    (lit "susunod na taon", lit "in 1 year");
    (lit "nakaraang taon", lit "1 year ago");
    (lit "ngayong linggo", lit "0 week ago");
    (lit "ngayong buwan", lit "0 month ago");
    (lit "ngayong araw", lit "0 day ago");
    (lit "ngayong oras", lit "0 hour ago");
    (lit "ngayong taon", lit "0 year ago");
    (lit "kahapon", lit "1 day ago");
    (lit "ngayon", lit "0 second ago");
    (lit "bukas", lit "in 1 day")];
    ld_relrx := [(rx "(?i)(\d+[.,]?\d*) segundo ang nakalipas", lit "$1 second ago");
    (rx "(?i)(\d+[.,]?\d*) linggo ang nakalipas", lit "$1 week ago");
    (rx "(?i)(\d+[.,]?\d*) minuto ang nakalipas", lit "$1 minute ago");
    (rx "(?i)(\d+[.,]?\d*) buwan ang nakalipas", lit "$1 month ago");
    (rx "(?i)(\d+[.,]?\d*) araw ang nakalipas", lit "$1 day ago");
    (rx "(?i)(\d+[.,]?\d*) oras ang nakalipas", lit "$1 hour ago");
    (rx "(?i)(\d+[.,]?\d*) taon ang nakalipas", lit "$1 year ago");
    (rx "(?i)(\d+[.,]?\d*) min ang nakalipas", lit "$1 minute ago");
    (rx "(?i)(\d+[.,]?\d*) seg ang nakalipas", lit "$1 second ago");
    (rx "(?i)(\d+[.,]?\d*) oras nakalipas", lit "$1 hour ago");
    (rx "(?i)(\d+[.,]?\d*) seg nakalipas", lit "$1 second ago");
    (rx "(?i)sa (\d+[.,]?\d*) segundo", lit "in $1 second");
    (rx "(?i)sa (\d+[.,]?\d*) linggo", lit "in $1 week");
    (rx "(?i)sa (\d+[.,]?\d*) minuto", lit "in $1 minute");
    (rx "(?i)sa (\d+[.,]?\d*) buwan", lit "in $1 month");
    (rx "(?i)sa (\d+[.,]?\d*) araw", lit "in $1 day");
    (rx "(?i)sa (\d+[.,]?\d*) oras", lit "in $1 hour");
    (rx "(?i)sa (\d+[.,]?\d*) taon", lit "in $1 year");
    (rx "(?i)sa (\d+[.,]?\d*) min", lit "in $1 minute");
    (rx "(?i)sa (\d+[.,]?\d*) seg", lit "in $1 second")];
    ld_rx := Some (rx "(?i)(\A|[^\pL\pM\d]|_)(\d+[.,]?\d* segundo ang nakalipas|\d+[.,]?\d* linggo ang nakalipas|\d+[.,]?\d* minuto ang nakalipas|\d+[.,]?\d* buwan ang nakalipas|\d+[.,]?\d* araw ang nakalipas|\d+[.,]?\d* oras ang nakalipas|\d+[.,]?\d* taon ang nakalipas|\d+[.,]?\d* min ang nakalipas|\d+[.,]?\d* seg ang nakalipas|\d+[.,]?\d* oras nakalipas|\d+[.,]?\d* seg nakalipas|sa \d+[.,]?\d* segundo|sa \d+[.,]?\d* linggo|sa \d+[.,]?\d* minuto|sa \d+[.,]?\d* buwan|sa \d+[.,]?\d* araw|sa \d+[.,]?\d* oras|sa \d+[.,]?\d* taon|sa \d+[.,]?\d* min|sa \d+[.,]?\d* seg)(\z|[^\pL\pM\d]|_)");
    ld_rx_exact := Some (rx "(?i)^(\d+[.,]?\d* segundo ang nakalipas|\d+[.,]?\d* linggo ang nakalipas|\d+[.,]?\d* minuto ang nakalipas|\d+[.,]?\d* buwan ang nakalipas|\d+[.,]?\d* araw ang nakalipas|\d+[.,]?\d* oras ang nakalipas|\d+[.,]?\d* taon ang nakalipas|\d+[.,]?\d* min ang nakalipas|\d+[.,]?\d* seg ang nakalipas|\d+[.,]?\d* oras nakalipas|\d+[.,]?\d* seg nakalipas|sa \d+[.,]?\d* segundo|sa \d+[.,]?\d* linggo|sa \d+[.,]?\d* minuto|sa \d+[.,]?\d* buwan|sa \d+[.,]?\d* araw|sa \d+[.,]?\d* oras|sa \d+[.,]?\d* taon|sa \d+[.,]?\d* min|sa \d+[.,]?\d* seg)$");
    ld_known := [lit "nakalipas na linggo";
    lit "susunod na linggo";
    lit "nakaraang linggo";
    lit "susunod na buwan";
    lit "nakaraang buwan";
    lit "sa linggong ito";
    lit "sa minutong ito";
    lit "susunod na taon";
    lit "nakaraang taon";
    lit "ngayong linggo";
    lit "ngayong buwan";
    lit "ngayong araw";
    lit "ngayong oras";
    lit "ngayong taon";
    lit "miyerkules";
    lit "disyembre";
    lit "nobyembre";
    lit "setyembre";
    lit "biyernes";
    lit "huwebes";
    lit "kahapon";
    lit "oktubre";
    lit "pebrero";
    lit "segundo";
    lit "agosto";
    lit "linggo";
    lit "martes";
    lit "minuto";
    lit "ngayon";
    lit "sabado";
    lit "abril";
    lit "bukas";
    lit "buwan";
    lit "enero";
    lit "hulyo";
    lit "hunyo";
    lit "lunes";
    lit "marso";
    lit "araw";
    lit "mayo";
    lit "oras";
    lit "taon";
    lit "abr";
    lit "ago";
    lit "biy";
    lit "dis";
    lit "ene";
    lit "gmt";
    lit "hul";
    lit "hun";
    lit "huw";
    lit "lin";
    lit "lun";
    lit "mar";
    lit "may";
    lit "min";
    lit "miy";
    lit "nob";
    lit "okt";
    lit "peb";
    lit "sab";
    lit "seg";
    lit "set";
    lit "utc";
    lit "am";
    lit "pm";
    lit " ";
    lit "'";
    lit "+";
    lit ",";
    lit "-";
    lit ".";
    lit "/";
    lit ":";
    lit ";";
    lit "@";
    lit "[";
    lit "]";
    lit "z";
    lit "|"] |}.

(** fo.go:13-157 *)
Definition loc_fo : locale := Eval vm_compute in
  {| ld_name := lit "fo"; ld_order := lit "DMY"; ld_nospacing := false; ld_splitter := 0;
    ld_charset := runes (lit "bcdefghijklnorstuvyzáæíðóøúý");
    ld_abbr := [];
    ld_simpl := [];
    ld_trans := [(lit "friggjadagur", [lit "friday"]);
    (lit "leygardagur", [lit "saturday"]);
    (lit "sunnudagur", [lit "sunday"]);
    (lit "manadagur", [lit "monday"]);
    (lit "mikudagur", [lit "wednesday"]);
    (lit "september", [lit "september"]);
    (lit "desember", [lit "december"]);
    (lit "hosdagur", [lit "thursday"]);
    (lit "minuttur", [lit "minute"]);
    (lit "november", [lit "november"]);
    (lit "tysdagur", [lit "tuesday"]);
    (lit "februar", [lit "february"]);
    (lit "manaður", [lit "month"]);
    (lit "oktober", [lit "october"]);
    (lit "august", [lit "august"]);
    (lit "januar", [lit "january"]);
    (lit "sekund", [lit "second"]);
    (lit "april", [lit "april"]);
    (lit "dagur", [lit "day"]);
    (lit "juli", [lit "july"]);
    (lit "juni", [lit "june"]);
    (lit "mars", [lit "march"]);
    (lit "timi", [lit "hour"]);
    (lit "vika", [lit "week"]);
    (lit "apr", [lit "april"]);
    (lit "aug", [lit "august"]);
    (lit "des", [lit "december"]);
    (lit "feb", [lit "february"]);
    (lit "fri", [lit "friday"]);
    (lit "gmt", [lit "gmt"]);
    (lit "hos", [lit "thursday"]);
    (lit "jan", [lit "january"]);
    (lit "jul", [lit "july"]);
    (lit "jun", [lit "june"]);
    (lit "ley", [lit "saturday"]);
    (lit "mai", [lit "may"]);
    (lit "man", [lit "monday"]);
    (lit "mar", [lit "march"]);
    (lit "mik", [lit "wednesday"]);
    (lit "min", [lit "minute"]);
    (lit "mnð", [lit "month"]);
    (lit "nov", [lit "november"]);
    (lit "okt", [lit "october"]);
    (lit "sek", [lit "second"]);
    (lit "sep", [lit "september"]);
    (lit "sun", [lit "sunday"]);
    (lit "tys", [lit "tuesday"]);
    (lit "utc", [lit "utc"]);
    (lit "am", [lit "am"]);
    (lit "ar", [lit "year"]);
    (lit "da", [lit "day"]);
    (lit "pm", [lit "pm"]);
    (lit "vi", [lit "week"]);
    (lit " ", [lit " "]);
    (lit "'", [lit ""]);
    (lit "+", [lit "+"]);
    (lit ",", [lit ""]);
    (lit "-", [lit "-"]);
    (lit ".", [lit "."]);
    (lit "/", [lit "/"]);
    (lit ":", [lit ":"]);
    (lit ";", [lit ""]);
    (lit "@", [lit ""]);
    (lit "[", [lit ""]);
    (lit "]", [lit ""]);
    (lit "d", [lit "day"]);
    (lit "m", [lit "minute"]);
    (lit "s", [lit "second"]);
    (lit "t", [lit "hour"]);
    (lit "v", [lit "week"]);
    (lit "z", [lit "z"]);
    (lit "|", [lit ""])];
    ld_reltype := [(lit "hendan minuttin", lit "0 minute ago");
    (lit "seinasta manað", lit "1 month ago");
    (lit "henda manaðin", lit "0 month ago");
    (lit "seinastu viku", lit "1 week ago");
    (lit "hendan timan", lit "0 hour ago");
    (lit "næsta manað", lit "in 1 month");
    (lit "næstu viku", lit "in 1 week");
    (lit "hesu viku", lit "0 week ago");
    (lit "i morgin", lit "in 1 day");
    (lit "næsta ar", lit "in 1 year");
    (lit "i fjør", lit "1 year ago");
    (lit "i gjar", lit "1 day ago");
    (lit "i dag", lit "0 day ago");
    (lit "i ar", lit "0 year ago");
    (lit "nu", lit "0 second ago")];
    ld_relrx := [(rx "(?i)(\d+[.,]?\d*) minuttir siðan", lit "$1 minute ago");
    (rx "(?i)(\d+[.,]?\d*) manaðir siðan", lit "$1 month ago");
    (rx "(?i)(\d+[.,]?\d*) minutt siðan", lit "$1 minute ago");
    (rx "(?i)(\d+[.,]?\d*) sekund siðan", lit "$1 second ago");
    (rx "(?i)(\d+[.,]?\d*) dagar siðan", lit "$1 day ago");
    (rx "(?i)(\d+[.,]?\d*) dagur siðan", lit "$1 day ago");
    (rx "(?i)(\d+[.,]?\d*) manað siðan", lit "$1 month ago");
    (rx "(?i)(\d+[.,]?\d*) timar siðan", lit "$1 hour ago");
    (rx "(?i)(\d+[.,]?\d*) vikur siðan", lit "$1 week ago");
    (rx "(?i)um (\d+[.,]?\d*) minuttir", lit "in $1 minute");
    (rx "(?i)(\d+[.,]?\d*) timi siðan", lit "$1 hour ago");
    (rx "(?i)(\d+[.,]?\d*) vika siðan", lit "$1 week ago");
    (rx "(?i)um (\d+[.,]?\d*) manaðir", lit "in $1 month");
    (rx "(?i)(\d+[.,]?\d*) min siðan", lit "$1 minute ago");
    (rx "(?i)(\d+[.,]?\d*) mnð siðan", lit "$1 month ago");
    (rx "(?i)(\d+[.,]?\d*) sek siðan", lit "$1 second ago");
    (rx "(?i)um (\d+[.,]?\d*) minutt", lit "in $1 minute");
    (rx "(?i)um (\d+[.,]?\d*) sekund", lit "in $1 second");
    (rx "(?i)(\d+[.,]?\d*) ar siðan", lit "$1 year ago");
    (rx "(?i)(\d+[.,]?\d*) da siðan", lit "$1 day ago");
    (rx "(?i)(\d+[.,]?\d*) vi siðan", lit "$1 week ago");
    (rx "(?i)um (\d+[.,]?\d*) dagar", lit "in $1 day");
    (rx "(?i)um (\d+[.,]?\d*) manað", lit "in $1 month");
    (rx "(?i)um (\d+[.,]?\d*) timar", lit "in $1 hour");
    (rx "(?i)um (\d+[.,]?\d*) vikur", lit "in $1 week");
    (rx "(?i)(\d+[.,]?\d*) d siðan", lit "$1 day ago");
    (rx "(?i)(\d+[.,]?\d*) m siðan", lit "$1 minute ago");
    (rx "(?i)(\d+[.,]?\d*) s siðan", lit "$1 second ago");
    (rx "(?i)(\d+[.,]?\d*) t siðan", lit "$1 hour ago");
    (rx "(?i)(\d+[.,]?\d*) v siðan", lit "$1 week ago");
    (rx "(?i)um (\d+[.,]?\d*) tima", lit "in $1 hour");
    (rx "(?i)um (\d+[.,]?\d*) viku", lit "in $1 week");
    (rx "(?i)um (\d+[.,]?\d*) dag", lit "in $1 day");
    (rx "(?i)um (\d+[.,]?\d*) min", lit "in $1 minute");
    (rx "(?i)um (\d+[.,]?\d*) mnð", lit "in $1 month");
    (rx "(?i)um (\d+[.,]?\d*) sek", lit "in $1 second");
    (rx "(?i)um (\d+[.,]?\d*) ar", lit "in $1 year");
    (rx "(?i)um (\d+[.,]?\d*) da", lit "in $1 day");
    (rx "(?i)um (\d+[.,]?\d*) vi", lit "in $1 week");
    (rx "(?i)um (\d+[.,]?\d*) d", lit "in $1 day");
    (rx "(?i)um (\d+[.,]?\d*) m", lit "in $1 minute");
    (rx "(?i)um (\d+[.,]?\d*) s", lit "in $1 second");
    (rx "(?i)um (\d+[.,]?\d*) t", lit "in $1 hour");
    (rx "(?i)um (\d+[.,]?\d*) v", lit "in $1 week")];
    ld_rx := Some (rx "(?i)(\A|[^\pL\pM\d]|_)(\d+[.,]?\d* minuttir siðan|\d+[.,]?\d* manaðir siðan|\d+[.,]?\d* minutt siðan|\d+[.,]?\d* sekund siðan|\d+[.,]?\d* dagar siðan|\d+[.,]?\d* dagur siðan|\d+[.,]?\d* manað siðan|\d+[.,]?\d* timar siðan|\d+[.,]?\d* vikur siðan|um \d+[.,]?\d* minuttir|\d+[.,]?\d* timi siðan|\d+[.,]?\d* vika siðan|um \d+[.,]?\d* manaðir|\d+[.,]?\d* min siðan|\d+[.,]?\d* mnð siðan|\d+[.,]?\d* sek siðan|um \d+[.,]?\d* minutt|um \d+[.,]?\d* sekund|\d+[.,]?\d* ar siðan|\d+[.,]?\d* da siðan|\d+[.,]?\d* vi siðan|um \d+[.,]?\d* dagar|um \d+[.,]?\d* manað|um \d+[.,]?\d* timar|um \d+[.,]?\d* vikur|\d+[.,]?\d* d siðan|\d+[.,]?\d* m siðan|\d+[.,]?\d* s siðan|\d+[.,]?\d* t siðan|\d+[.,]?\d* v siðan|um \d+[.,]?\d* tima|um \d+[.,]?\d* viku|um \d+[.,]?\d* dag|um \d+[.,]?\d* min|um \d+[.,]?\d* mnð|um \d+[.,]?\d* sek|um \d+[.,]?\d* ar|um \d+[.,]?\d* da|um \d+[.,]?\d* vi|um \d+[.,]?\d* d|um \d+[.,]?\d* m|um \d+[.,]?\d* s|um \d+[.,]?\d* t|um \d+[.,]?\d* v)(\z|[^\pL\pM\d]|_)");
    ld_rx_exact := Some (rx "(?i)^(\d+[.,]?\d* minuttir siðan|\d+[.,]?\d* manaðir siðan|\d+[.,]?\d* minutt siðan|\d+[.,]?\d* sekund siðan|\d+[.,]?\d* dagar siðan|\d+[.,]?\d* dagur siðan|\d+[.,]?\d* manað siðan|\d+[.,]?\d* timar siðan|\d+[.,]?\d* vikur siðan|um \d+[.,]?\d* minuttir|\d+[.,]?\d* timi siðan|\d+[.,]?\d* vika siðan|um \d+[.,]?\d* manaðir|\d+[.,]?\d* min siðan|\d+[.,]?\d* mnð siðan|\d+[.,]?\d* sek siðan|um \d+[.,]?\d* minutt|um \d+[.,]?\d* sekund|\d+[.,]?\d* ar siðan|\d+[.,]?\d* da siðan|\d+[.,]?\d* vi siðan|um \d+[.,]?\d* dagar|um \d+[.,]?\d* manað|um \d+[.,]?\d* timar|um \d+[.,]?\d* vikur|\d+[.,]?\d* d siðan|\d+[.,]?\d* m siðan|\d+[.,]?\d* s siðan|\d+[.,]?\d* t siðan|\d+[.,]?\d* v siðan|um \d+[.,]?\d* tima|um \d+[.,]?\d* viku|um \d+[.,]?\d* dag|um \d+[.,]?\d* min|um \d+[.,]?\d* mnð|um \d+[.,]?\d* sek|um \d+[.,]?\d* ar|um \d+[.,]?\d* da|um \d+[.,]?\d* vi|um \d+[.,]?\d* d|um \d+[.,]?\d* m|um \d+[.,]?\d* s|um \d+[.,]?\d* t|um \d+[.,]?\d* v)$");
    ld_known := [lit "hendan minuttin";
    lit "seinasta manað";
    lit "henda manaðin";
    lit "seinastu viku";
    lit "friggjadagur";
    lit "hendan timan";
    lit "leygardagur";
    lit "næsta manað";
    lit "næstu viku";
    lit "sunnudagur";
    lit "hesu viku";
    lit "manadagur";
    lit "mikudagur";
    lit "september";
    lit "desember";
    lit "hosdagur";
    lit "i morgin";
    lit "minuttur";
    lit "november";
    lit "næsta ar";
    lit "tysdagur";
    lit "februar";
    lit "manaður";
    lit "oktober";
    lit "august";
    lit "i fjør";
    lit "i gjar";
    lit "januar";
    lit "sekund";
    lit "april";
    lit "dagur";
    lit "i dag";
    lit "i ar";
    lit "juli";
    lit "juni";
    lit "mars";
    lit "timi";
    lit "vika";
    lit "apr";
    lit "aug";
    lit "des";
    lit "feb";
    lit "fri";
    lit "gmt";
    lit "hos";
    lit "jan";
    lit "jul";
    lit "jun";
    lit "ley";
    lit "mai";
    lit "man";
    lit "mar";
    lit "mik";
    lit "min";
    lit "mnð";
    lit "nov";
    lit "okt";
    lit "sek";
    lit "sep";
    lit "sun";
    lit "tys";
    lit "utc";
    lit "am";
    lit "ar";
    lit "da";
    lit "nu";
    lit "pm";
    lit "vi";
    lit " ";
    lit "'";
    lit "+";
    lit ",";
    lit "-";
    lit ".";
    lit "/";
    lit ":";
    lit ";";
    lit "@";
    lit "[";
    lit "]";
    lit "d";
    lit "m";
    lit "s";
    lit "t";
    lit "v";
    lit "z";
    lit "|"] |}.

(** fo.go:159-162 *)
Definition own_fo_DK : locale := Eval vm_compute in
  {| ld_name := lit "fo-DK"; ld_order := lit "DMY"; ld_nospacing := false; ld_splitter := 0;
    ld_charset := runes (lit "");
    ld_abbr := [];
    ld_simpl := [];
    ld_trans := [];
    ld_reltype := [];
    ld_relrx := [];
    ld_rx := None;
    ld_rx_exact := None;
    ld_known := [] |}.
Definition loc_fo_DK : locale := merge loc_fo own_fo_DK.

(** fr.go:252-255 *)
Definition own_fr_BE : locale := Eval vm_compute in
  {| ld_name := lit "fr-BE"; ld_order := lit "DMY"; ld_nospacing := false; ld_splitter := 0;
    ld_charset := runes (lit "");
    ld_abbr := [];
    ld_simpl := [];
    ld_trans := [];
    ld_reltype := [];
    ld_relrx := [];
    ld_rx := None;
    ld_rx_exact := None;
    ld_known := [] |}.
Definition loc_fr_BE : locale := merge loc_fr own_fr_BE.

(** fr.go:257-260 *)
Definition own_fr_BF : locale := Eval vm_compute in
  {| ld_name := lit "fr-BF"; ld_order := lit "DMY"; ld_nospacing := false; ld_splitter := 0;
    ld_charset := runes (lit "");
    ld_abbr := [];
    ld_simpl := [];
    ld_trans := [];
    ld_reltype := [];
    ld_relrx := [];
    ld_rx := None;
    ld_rx_exact := None;
    ld_known := [] |}.
Definition loc_fr_BF : locale := merge loc_fr own_fr_BF.

(** fr.go:262-265 *)
Definition own_fr_BI : locale := Eval vm_compute in
  {| ld_name := lit "fr-BI"; ld_order := lit "DMY"; ld_nospacing := false; ld_splitter := 0;
    ld_charset := runes (lit "");
    ld_abbr := [];
    ld_simpl := [];
    ld_trans := [];
    ld_reltype := [];
    ld_relrx := [];
    ld_rx := None;
    ld_rx_exact := None;
    ld_known := [] |}.
Definition loc_fr_BI : locale := merge loc_fr own_fr_BI.

(** fr.go:267-270 *)
Definition own_fr_BJ : locale := Eval vm_compute in
  {| ld_name := lit "fr-BJ"; ld_order := lit "DMY"; ld_nospacing := false; ld_splitter := 0;
    ld_charset := runes (lit "");
    ld_abbr := [];
    ld_simpl := [];
    ld_trans := [];
    ld_reltype := [];
    ld_relrx := [];
    ld_rx := None;
    ld_rx_exact := None;
    ld_known := [] |}.
Definition loc_fr_BJ : locale := merge loc_fr own_fr_BJ.

(** fr.go:272-275 *)
Definition own_fr_BL : locale := Eval vm_compute in
  {| ld_name := lit "fr-BL"; ld_order := lit "DMY"; ld_nospacing := false; ld_splitter := 0;
    ld_charset := runes (lit "");
    ld_abbr := [];
    ld_simpl := [];
    ld_trans := [];
    ld_reltype := [];
    ld_relrx := [];
    ld_rx := None;
    ld_rx_exact := None;
    ld_known := [] |}.
Definition loc_fr_BL : locale := merge loc_fr own_fr_BL.

(** fr.go:277-284 *)
Definition own_fr_CA : locale := Eval vm_compute in
  {| ld_name := lit "fr-CA"; ld_order := lit "YMD"; ld_nospacing := false; ld_splitter := 0;
    ld_charset := runes (lit "");
    ld_abbr := [];
    ld_simpl := [];
    ld_trans := [(lit "juill", [lit "july"])];
    ld_reltype := [];
    ld_relrx := [];
    ld_rx := None;
    ld_rx_exact := None;
    ld_known := [lit "la semaine prochaine";
    lit "la semaine derniere";
    lit "l'annee prochaine";
    lit "l'annee derniere";
    lit "le mois prochain";
    lit "cette minute-ci";
    lit "le mois dernier";
    lit "cette heure-ci";
    lit "cette semaine";
    lit "apres-demain";
    lit "aujourd'hui";
    lit "cette annee";
    lit "avant-hier";
    lit "ce mois-ci";
    lit "maintenant";
    lit "septembre";
    lit "decembre";
    lit "dimanche";
    lit "mercredi";
    lit "novembre";
    lit "secondes";
    lit "semaines";
    lit "vendredi";
    lit "environ";
    lit "fevrier";
    lit "janvier";
    lit "juillet";
    lit "minutes";
    lit "octobre";
    lit "seconde";
    lit "semaine";
    lit "annees";
    lit "demain";
    lit "heures";
    lit "il y a";
    lit "minute";
    lit "samedi";
    lit "annee";
    lit "apres";
    lit "avril";
    lit "heure";
    lit "il ya";
    lit "jeudi";
    lit "jours";
    lit "juill";
    lit "lundi";
    lit "mardi";
    lit "aout";
    lit "dans";
    lit "fevr";
    lit "hier";
    lit "janv";
    lit "jour";
    lit "juil";
    lit "juin";
    lit "mars";
    lit "mois";
    lit "sept";
    lit "ans";
    lit "aou";
    lit "avr";
    lit "dec";
    lit "dim";
    lit "fev";
    lit "gmt";
    lit "jan";
    lit "jeu";
    lit "jul";
    lit "jun";
    lit "lun";
    lit "mai";
    lit "mar";
    lit "mer";
    lit "min";
    lit "nov";
    lit "oct";
    lit "sam";
    lit "sem";
    lit "sep";
    lit "utc";
    lit "ven";
    lit "am";
    lit "an";
    lit "di";
    lit "en";
    lit "er";
    lit "et";
    lit "je";
    lit "le";
    lit "lu";
    lit "ma";
    lit "me";
    lit "pm";
    lit "sa";
    lit "ve";
    lit " ";
    lit "'";
    lit "+";
    lit ",";
    lit "-";
    lit ".";
    lit "/";
    lit ":";
    lit ";";
    lit "@";
    lit "[";
    lit "]";
    lit "a";
    lit "h";
    lit "j";
    lit "m";
    lit "s";
    lit "z";
    lit "|"] |}.
Definition loc_fr_CA : locale := merge loc_fr own_fr_CA.

(** fr.go:286-289 *)
Definition own_fr_CD : locale := Eval vm_compute in
  {| ld_name := lit "fr-CD"; ld_order := lit "DMY"; ld_nospacing := false; ld_splitter := 0;
    ld_charset := runes (lit "");
    ld_abbr := [];
    ld_simpl := [];
    ld_trans := [];
    ld_reltype := [];
    ld_relrx := [];
    ld_rx := None;
    ld_rx_exact := None;
    ld_known := [] |}.
Definition loc_fr_CD : locale := merge loc_fr own_fr_CD.

(** fr.go:291-294 *)
Definition own_fr_CF : locale := Eval vm_compute in
  {| ld_name := lit "fr-CF"; ld_order := lit "DMY"; ld_nospacing := false; ld_splitter := 0;
    ld_charset := runes (lit "");
    ld_abbr := [];
    ld_simpl := [];
    ld_trans := [];
    ld_reltype := [];
    ld_relrx := [];
    ld_rx := None;
    ld_rx_exact := None;
    ld_known := [] |}.
Definition loc_fr_CF : locale := merge loc_fr own_fr_CF.

(** fr.go:296-299 *)
Definition own_fr_CG : locale := Eval vm_compute in
  {| ld_name := lit "fr-CG"; ld_order := lit "DMY"; ld_nospacing := false; ld_splitter := 0;
    ld_charset := runes (lit "");
    ld_abbr := [];
    ld_simpl := [];
    ld_trans := [];
    ld_reltype := [];
    ld_relrx := [];
    ld_rx := None;
    ld_rx_exact := None;
    ld_known := [] |}.
Definition loc_fr_CG : locale := merge loc_fr own_fr_CG.

(** fr.go:301-304 *)
Definition own_fr_CH : locale := Eval vm_compute in
  {| ld_name := lit "fr-CH"; ld_order := lit "DMY"; ld_nospacing := false; ld_splitter := 0;
    ld_charset := runes (lit "");
    ld_abbr := [];
    ld_simpl := [];
    ld_trans := [];
    ld_reltype := [];
    ld_relrx := [];
    ld_rx := None;
    ld_rx_exact := None;
    ld_known := [] |}.
Definition loc_fr_CH : locale := merge loc_fr own_fr_CH.

(** fr.go:306-309 *)
Definition own_fr_CI : locale := Eval vm_compute in
  {| ld_name := lit "fr-CI"; ld_order := lit "DMY"; ld_nospacing := false; ld_splitter := 0;
    ld_charset := runes (lit "");
    ld_abbr := [];
    ld_simpl := [];
    ld_trans := [];
    ld_reltype := [];
    ld_relrx := [];
    ld_rx := None;
    ld_rx_exact := None;
    ld_known := [] |}.
Definition loc_fr_CI : locale := merge loc_fr own_fr_CI.

(** fr.go:311-320 *)
Definition own_fr_CM : locale := Eval vm_compute in
  {| ld_name := lit "fr-CM"; ld_order := lit "DMY"; ld_nospacing := false; ld_splitter := 0;
    ld_charset := runes (lit "");
    ld_abbr := [];
    ld_simpl := [];
    ld_trans := [(lit "matin", [lit "am"]);
    (lit "soir", [lit "pm"]);
    (lit "mat", [lit "am"])];
    ld_reltype := [];
    ld_relrx := [];
    ld_rx := None;
    ld_rx_exact := None;
    ld_known := [lit "la semaine prochaine";
    lit "la semaine derniere";
    lit "l'annee prochaine";
    lit "l'annee derniere";
    lit "le mois prochain";
    lit "cette minute-ci";
    lit "le mois dernier";
    lit "cette heure-ci";
    lit "cette semaine";
    lit "apres-demain";
    lit "aujourd'hui";
    lit "cette annee";
    lit "avant-hier";
    lit "ce mois-ci";
    lit "maintenant";
    lit "septembre";
    lit "decembre";
    lit "dimanche";
    lit "mercredi";
    lit "novembre";
    lit "secondes";
    lit "semaines";
    lit "vendredi";
    lit "environ";
    lit "fevrier";
    lit "janvier";
    lit "juillet";
    lit "minutes";
    lit "octobre";
    lit "seconde";
    lit "semaine";
    lit "annees";
    lit "demain";
    lit "heures";
    lit "il y a";
    lit "minute";
    lit "samedi";
    lit "annee";
    lit "apres";
    lit "avril";
    lit "heure";
    lit "il ya";
    lit "jeudi";
    lit "jours";
    lit "lundi";
    lit "mardi";
    lit "matin";
    lit "aout";
    lit "dans";
    lit "fevr";
    lit "hier";
    lit "janv";
    lit "jour";
    lit "juil";
    lit "juin";
    lit "mars";
    lit "mois";
    lit "sept";
    lit "soir";
    lit "ans";
    lit "aou";
    lit "avr";
    lit "dec";
    lit "dim";
    lit "fev";
    lit "gmt";
    lit "jan";
    lit "jeu";
    lit "jul";
    lit "jun";
    lit "lun";
    lit "mai";
    lit "mar";
    lit "mat";
    lit "mer";
    lit "min";
    lit "nov";
    lit "oct";
    lit "sam";
    lit "sem";
    lit "sep";
    lit "utc";
    lit "ven";
    lit "am";
    lit "an";
    lit "di";
    lit "en";
    lit "er";
    lit "et";
    lit "je";
    lit "le";
    lit "lu";
    lit "ma";
    lit "me";
    lit "pm";
    lit "sa";
    lit "ve";
    lit " ";
    lit "'";
    lit "+";
    lit ",";
    lit "-";
    lit ".";
    lit "/";
    lit ":";
    lit ";";
    lit "@";
    lit "[";
    lit "]";
    lit "a";
    lit "h";
    lit "j";
    lit "m";
    lit "s";
    lit "z";
    lit "|"] |}.
Definition loc_fr_CM : locale := merge loc_fr own_fr_CM.

(** fr.go:322-325 *)
Definition own_fr_DJ : locale := Eval vm_compute in
  {| ld_name := lit "fr-DJ"; ld_order := lit "DMY"; ld_nospacing := false; ld_splitter := 0;
    ld_charset := runes (lit "");
    ld_abbr := [];
    ld_simpl := [];
    ld_trans := [];
    ld_reltype := [];
    ld_relrx := [];
    ld_rx := None;
    ld_rx_exact := None;
    ld_known := [] |}.
Definition loc_fr_DJ : locale := merge loc_fr own_fr_DJ.

(** fr.go:327-330 *)
Definition own_fr_DZ : locale := Eval vm_compute in
  {| ld_name := lit "fr-DZ"; ld_order := lit "DMY"; ld_nospacing := false; ld_splitter := 0;
    ld_charset := runes (lit "");
    ld_abbr := [];
    ld_simpl := [];
    ld_trans := [];
    ld_reltype := [];
    ld_relrx := [];
    ld_rx := None;
    ld_rx_exact := None;
    ld_known := [] |}.
Definition loc_fr_DZ : locale := merge loc_fr own_fr_DZ.

(** fr.go:332-335 *)
Definition own_fr_GA : locale := Eval vm_compute in
  {| ld_name := lit "fr-GA"; ld_order := lit "DMY"; ld_nospacing := false; ld_splitter := 0;
    ld_charset := runes (lit "");
    ld_abbr := [];
    ld_simpl := [];
    ld_trans := [];
    ld_reltype := [];
    ld_relrx := [];
    ld_rx := None;
    ld_rx_exact := None;
    ld_known := [] |}.
Definition loc_fr_GA : locale := merge loc_fr own_fr_GA.

(** fr.go:337-340 *)
Definition own_fr_GF : locale := Eval vm_compute in
  {| ld_name := lit "fr-GF"; ld_order := lit "DMY"; ld_nospacing := false; ld_splitter := 0;
    ld_charset := runes (lit "");
    ld_abbr := [];
    ld_simpl := [];
    ld_trans := [];
    ld_reltype := [];
    ld_relrx := [];
    ld_rx := None;
    ld_rx_exact := None;
    ld_known := [] |}.
Definition loc_fr_GF : locale := merge loc_fr own_fr_GF.

(** fr.go:342-345 *)
Definition own_fr_GN : locale := Eval vm_compute in
  {| ld_name := lit "fr-GN"; ld_order := lit "DMY"; ld_nospacing := false; ld_splitter := 0;
    ld_charset := runes (lit "");
    ld_abbr := [];
    ld_simpl := [];
    ld_trans := [];
    ld_reltype := [];
    ld_relrx := [];
    ld_rx := None;
    ld_rx_exact := None;
    ld_known := [] |}.
Definition loc_fr_GN : locale := merge loc_fr own_fr_GN.

(** fr.go:347-350 *)
Definition own_fr_GP : locale := Eval vm_compute in
  {| ld_name := lit "fr-GP"; ld_order := lit "DMY"; ld_nospacing := false; ld_splitter := 0;
    ld_charset := runes (lit "");
    ld_abbr := [];
    ld_simpl := [];
    ld_trans := [];
    ld_reltype := [];
    ld_relrx := [];
    ld_rx := None;
    ld_rx_exact := None;
    ld_known := [] |}.
Definition loc_fr_GP : locale := merge loc_fr own_fr_GP.

(** fr.go:352-355 *)
Definition own_fr_GQ : locale := Eval vm_compute in
  {| ld_name := lit "fr-GQ"; ld_order := lit "DMY"; ld_nospacing := false; ld_splitter := 0;
    ld_charset := runes (lit "");
    ld_abbr := [];
    ld_simpl := [];
    ld_trans := [];
    ld_reltype := [];
    ld_relrx := [];
    ld_rx := None;
    ld_rx_exact := None;
    ld_known := [] |}.
Definition loc_fr_GQ : locale := merge loc_fr own_fr_GQ.

(** fr.go:357-366 *)
Definition own_fr_HT : locale := Eval vm_compute in
  {| ld_name := lit "fr-HT"; ld_order := lit "DMY"; ld_nospacing := false; ld_splitter := 0;
    ld_charset := runes (lit "");
    ld_abbr := [];
    ld_simpl := [];
    ld_trans := [(lit "sec", [lit "second"]);
    (lit "hr", [lit "hour"]);
    (lit "jr", [lit "day"])];
    ld_reltype := [];
    ld_relrx := [];
    ld_rx := None;
    ld_rx_exact := None;
    ld_known := [lit "la semaine prochaine";
    lit "la semaine derniere";
    lit "l'annee prochaine";
    lit "l'annee derniere";
    lit "le mois prochain";
    lit "cette minute-ci";
    lit "le mois dernier";
    lit "cette heure-ci";
    lit "cette semaine";
    lit "apres-demain";
    lit "aujourd'hui";
    lit "cette annee";
    lit "avant-hier";
    lit "ce mois-ci";
    lit "maintenant";
    lit "septembre";
    lit "decembre";
    lit "dimanche";
    lit "mercredi";
    lit "novembre";
    lit "secondes";
    lit "semaines";
    lit "vendredi";
    lit "environ";
    lit "fevrier";
    lit "janvier";
    lit "juillet";
    lit "minutes";
    lit "octobre";
    lit "seconde";
    lit "semaine";
    lit "annees";
    lit "demain";
    lit "heures";
    lit "il y a";
    lit "minute";
    lit "samedi";
    lit "annee";
    lit "apres";
    lit "avril";
    lit "heure";
    lit "il ya";
    lit "jeudi";
    lit "jours";
    lit "lundi";
    lit "mardi";
    lit "aout";
    lit "dans";
    lit "fevr";
    lit "hier";
    lit "janv";
    lit "jour";
    lit "juil";
    lit "juin";
    lit "mars";
    lit "mois";
    lit "sept";
    lit "ans";
    lit "aou";
    lit "avr";
    lit "dec";
    lit "dim";
    lit "fev";
    lit "gmt";
    lit "jan";
    lit "jeu";
    lit "jul";
    lit "jun";
    lit "lun";
    lit "mai";
    lit "mar";
    lit "mer";
    lit "min";
    lit "nov";
    lit "oct";
    lit "sam";
    lit "sec";
    lit "sem";
    lit "sep";
    lit "utc";
    lit "ven";
    lit "am";
    lit "an";
    lit "di";
    lit "en";
    lit "er";
    lit "et";
    lit "hr";
    lit "je";
    lit "jr";
    lit "le";
    lit "lu";
    lit "ma";
    lit "me";
    lit "pm";
    lit "sa";
    lit "ve";
    lit " ";
    lit "'";
    lit "+";
    lit ",";
    lit "-";
    lit ".";
    lit "/";
    lit ":";
    lit ";";
    lit "@";
    lit "[";
    lit "]";
    lit "a";
    lit "h";
    lit "j";
    lit "m";
    lit "s";
    lit "z";
    lit "|"] |}.
Definition loc_fr_HT : locale := merge loc_fr own_fr_HT.

(** fr.go:368-371 *)
Definition own_fr_KM : locale := Eval vm_compute in
  {| ld_name := lit "fr-KM"; ld_order := lit "DMY"; ld_nospacing := false; ld_splitter := 0;
    ld_charset := runes (lit "");
    ld_abbr := [];
    ld_simpl := [];
    ld_trans := [];
    ld_reltype := [];
    ld_relrx := [];
    ld_rx := None;
    ld_rx_exact := None;
    ld_known := [] |}.
Definition loc_fr_KM : locale := merge loc_fr own_fr_KM.

(** fr.go:373-376 *)
Definition own_fr_LU : locale := Eval vm_compute in
  {| ld_name := lit "fr-LU"; ld_order := lit "DMY"; ld_nospacing := false; ld_splitter := 0;
    ld_charset := runes (lit "");
    ld_abbr := [];
    ld_simpl := [];
    ld_trans := [];
    ld_reltype := [];
    ld_relrx := [];
    ld_rx := None;
    ld_rx_exact := None;
    ld_known := [] |}.
Definition loc_fr_LU : locale := merge loc_fr own_fr_LU.

(** fr.go:378-386 *)
Definition own_fr_MA : locale := Eval vm_compute in
  {| ld_name := lit "fr-MA"; ld_order := lit "DMY"; ld_nospacing := false; ld_splitter := 0;
    ld_charset := runes (lit "");
    ld_abbr := [];
    ld_simpl := [];
    ld_trans := [(lit "jui", [lit "june"]);
    (lit "mar", [lit "march"])];
    ld_reltype := [];
    ld_relrx := [];
    ld_rx := None;
    ld_rx_exact := None;
    ld_known := [lit "la semaine prochaine";
    lit "la semaine derniere";
    lit "l'annee prochaine";
    lit "l'annee derniere";
    lit "le mois prochain";
    lit "cette minute-ci";
    lit "le mois dernier";
    lit "cette heure-ci";
    lit "cette semaine";
    lit "apres-demain";
    lit "aujourd'hui";
    lit "cette annee";
    lit "avant-hier";
    lit "ce mois-ci";
    lit "maintenant";
    lit "septembre";
    lit "decembre";
    lit "dimanche";
    lit "mercredi";
    lit "novembre";
    lit "secondes";
    lit "semaines";
    lit "vendredi";
    lit "environ";
    lit "fevrier";
    lit "janvier";
    lit "juillet";
    lit "minutes";
    lit "octobre";
    lit "seconde";
    lit "semaine";
    lit "annees";
    lit "demain";
    lit "heures";
    lit "il y a";
    lit "minute";
    lit "samedi";
    lit "annee";
    lit "apres";
    lit "avril";
    lit "heure";
    lit "il ya";
    lit "jeudi";
    lit "jours";
    lit "lundi";
    lit "mardi";
    lit "aout";
    lit "dans";
    lit "fevr";
    lit "hier";
    lit "janv";
    lit "jour";
    lit "juil";
    lit "juin";
    lit "mars";
    lit "mois";
    lit "sept";
    lit "ans";
    lit "aou";
    lit "avr";
    lit "dec";
    lit "dim";
    lit "fev";
    lit "gmt";
    lit "jan";
    lit "jeu";
    lit "jui";
    lit "jul";
    lit "jun";
    lit "lun";
    lit "mai";
    lit "mar";
    lit "mer";
    lit "min";
    lit "nov";
    lit "oct";
    lit "sam";
    lit "sem";
    lit "sep";
    lit "utc";
    lit "ven";
    lit "am";
    lit "an";
    lit "di";
    lit "en";
    lit "er";
    lit "et";
    lit "je";
    lit "le";
    lit "lu";
    lit "ma";
    lit "me";
    lit "pm";
    lit "sa";
    lit "ve";
    lit " ";
    lit "'";
    lit "+";
    lit ",";
    lit "-";
    lit ".";
    lit "/";
    lit ":";
    lit ";";
    lit "@";
    lit "[";
    lit "]";
    lit "a";
    lit "h";
    lit "j";
    lit "m";
    lit "s";
    lit "z";
    lit "|"] |}.
Definition loc_fr_MA : locale := merge loc_fr own_fr_MA.

(** fr.go:388-391 *)
Definition own_fr_MC : locale := Eval vm_compute in
  {| ld_name := lit "fr-MC"; ld_order := lit "DMY"; ld_nospacing := false; ld_splitter := 0;
    ld_charset := runes (lit "");
    ld_abbr := [];
    ld_simpl := [];
    ld_trans := [];
    ld_reltype := [];
    ld_relrx := [];
    ld_rx := None;
    ld_rx_exact := None;
    ld_known := [] |}.
Definition loc_fr_MC : locale := merge loc_fr own_fr_MC.

(** fr.go:393-396 *)
Definition own_fr_MF : locale := Eval vm_compute in
  {| ld_name := lit "fr-MF"; ld_order := lit "DMY"; ld_nospacing := false; ld_splitter := 0;
    ld_charset := runes (lit "");
    ld_abbr := [];
    ld_simpl := [];
    ld_trans := [];
    ld_reltype := [];
    ld_relrx := [];
    ld_rx := None;
    ld_rx_exact := None;
    ld_known := [] |}.
Definition loc_fr_MF : locale := merge loc_fr own_fr_MF.

(** fr.go:398-401 *)
Definition own_fr_MG : locale := Eval vm_compute in
  {| ld_name := lit "fr-MG"; ld_order := lit "DMY"; ld_nospacing := false; ld_splitter := 0;
    ld_charset := runes (lit "");
    ld_abbr := [];
    ld_simpl := [];
    ld_trans := [];
    ld_reltype := [];
    ld_relrx := [];
    ld_rx := None;
    ld_rx_exact := None;
    ld_known := [] |}.
Definition loc_fr_MG : locale := merge loc_fr own_fr_MG.

(** fr.go:403-406 *)
Definition own_fr_ML : locale := Eval vm_compute in
  {| ld_name := lit "fr-ML"; ld_order := lit "DMY"; ld_nospacing := false; ld_splitter := 0;
    ld_charset := runes (lit "");
    ld_abbr := [];
    ld_simpl := [];
    ld_trans := [];
    ld_reltype := [];
    ld_relrx := [];
    ld_rx := None;
    ld_rx_exact := None;
    ld_known := [] |}.
Definition loc_fr_ML : locale := merge loc_fr own_fr_ML.

(** fr.go:408-411 *)
Definition own_fr_MQ : locale := Eval vm_compute in
  {| ld_name := lit "fr-MQ"; ld_order := lit "DMY"; ld_nospacing := false; ld_splitter := 0;
    ld_charset := runes (lit "");
    ld_abbr := [];
    ld_simpl := [];
    ld_trans := [];
    ld_reltype := [];
    ld_relrx := [];
    ld_rx := None;
    ld_rx_exact := None;
    ld_known := [] |}.
Definition loc_fr_MQ : locale := merge loc_fr own_fr_MQ.

(** fr.go:413-416 *)
Definition own_fr_MR : locale := Eval vm_compute in
  {| ld_name := lit "fr-MR"; ld_order := lit "DMY"; ld_nospacing := false; ld_splitter := 0;
    ld_charset := runes (lit "");
    ld_abbr := [];
    ld_simpl := [];
    ld_trans := [];
    ld_reltype := [];
    ld_relrx := [];
    ld_rx := None;
    ld_rx_exact := None;
    ld_known := [] |}.
Definition loc_fr_MR : locale := merge loc_fr own_fr_MR.

(** fr.go:418-421 *)
Definition own_fr_MU : locale := Eval vm_compute in
  {| ld_name := lit "fr-MU"; ld_order := lit "DMY"; ld_nospacing := false; ld_splitter := 0;
    ld_charset := runes (lit "");
    ld_abbr := [];
    ld_simpl := [];
    ld_trans := [];
    ld_reltype := [];
    ld_relrx := [];
    ld_rx := None;
    ld_rx_exact := None;
    ld_known := [] |}.
Definition loc_fr_MU : locale := merge loc_fr own_fr_MU.

(** fr.go:423-426 *)
Definition own_fr_NC : locale := Eval vm_compute in
  {| ld_name := lit "fr-NC"; ld_order := lit "DMY"; ld_nospacing := false; ld_splitter := 0;
    ld_charset := runes (lit "");
    ld_abbr := [];
    ld_simpl := [];
    ld_trans := [];
    ld_reltype := [];
    ld_relrx := [];
    ld_rx := None;
    ld_rx_exact := None;
    ld_known := [] |}.
Definition loc_fr_NC : locale := merge loc_fr own_fr_NC.

(** fr.go:428-431 *)
Definition own_fr_NE : locale := Eval vm_compute in
  {| ld_name := lit "fr-NE"; ld_order := lit "DMY"; ld_nospacing := false; ld_splitter := 0;
    ld_charset := runes (lit "");
    ld_abbr := [];
    ld_simpl := [];
    ld_trans := [];
    ld_reltype := [];
    ld_relrx := [];
    ld_rx := None;
    ld_rx_exact := None;
    ld_known := [] |}.
Definition loc_fr_NE : locale := merge loc_fr own_fr_NE.

(** fr.go:433-436 *)
Definition own_fr_PF : locale := Eval vm_compute in
  {| ld_name := lit "fr-PF"; ld_order := lit "DMY"; ld_nospacing := false; ld_splitter := 0;
    ld_charset := runes (lit "");
    ld_abbr := [];
    ld_simpl := [];
    ld_trans := [];
    ld_reltype := [];
    ld_relrx := [];
    ld_rx := None;
    ld_rx_exact := None;
    ld_known := [] |}.
Definition loc_fr_PF : locale := merge loc_fr own_fr_PF.

(** fr.go:438-441 *)
Definition own_fr_PM : locale := Eval vm_compute in
  {| ld_name := lit "fr-PM"; ld_order := lit "DMY"; ld_nospacing := false; ld_splitter := 0;
    ld_charset := runes (lit "");
    ld_abbr := [];
    ld_simpl := [];
    ld_trans := [];
    ld_reltype := [];
    ld_relrx := [];
    ld_rx := None;
    ld_rx_exact := None;
    ld_known := [] |}.
Definition loc_fr_PM : locale := merge loc_fr own_fr_PM.

(** fr.go:443-446 *)
Definition own_fr_RE : locale := Eval vm_compute in
  {| ld_name := lit "fr-RE"; ld_order := lit "DMY"; ld_nospacing := false; ld_splitter := 0;
    ld_charset := runes (lit "");
    ld_abbr := [];
    ld_simpl := [];
    ld_trans := [];
    ld_reltype := [];
    ld_relrx := [];
    ld_rx := None;
    ld_rx_exact := None;
    ld_known := [] |}.
Definition loc_fr_RE : locale := merge loc_fr own_fr_RE.

(** fr.go:448-451 *)
Definition own_fr_RW : locale := Eval vm_compute in
  {| ld_name := lit "fr-RW"; ld_order := lit "DMY"; ld_nospacing := false; ld_splitter := 0;
    ld_charset := runes (lit "");
    ld_abbr := [];
    ld_simpl := [];
    ld_trans := [];
    ld_reltype := [];
    ld_relrx := [];
    ld_rx := None;
    ld_rx_exact := None;
    ld_known := [] |}.
Definition loc_fr_RW : locale := merge loc_fr own_fr_RW.

(** fr.go:453-456 *)
Definition own_fr_SC : locale := Eval vm_compute in
  {| ld_name := lit "fr-SC"; ld_order := lit "DMY"; ld_nospacing := false; ld_splitter := 0;
    ld_charset := runes (lit "");
    ld_abbr := [];
    ld_simpl := [];
    ld_trans := [];
    ld_reltype := [];
    ld_relrx := [];
    ld_rx := None;
    ld_rx_exact := None;
    ld_known := [] |}.
Definition loc_fr_SC : locale := merge loc_fr own_fr_SC.

(** fr.go:458-461 *)
Definition own_fr_SN : locale := Eval vm_compute in
  {| ld_name := lit "fr-SN"; ld_order := lit "DMY"; ld_nospacing := false; ld_splitter := 0;
    ld_charset := runes (lit "");
    ld_abbr := [];
    ld_simpl := [];
    ld_trans := [];
    ld_reltype := [];
    ld_relrx := [];
    ld_rx := None;
    ld_rx_exact := None;
    ld_known := [] |}.
Definition loc_fr_SN : locale := merge loc_fr own_fr_SN.

(** fr.go:463-466 *)
Definition own_fr_SY : locale := Eval vm_compute in
  {| ld_name := lit "fr-SY"; ld_order := lit "DMY"; ld_nospacing := false; ld_splitter := 0;
    ld_charset := runes (lit "");
    ld_abbr := [];
    ld_simpl := [];
    ld_trans := [];
    ld_reltype := [];
    ld_relrx := [];
    ld_rx := None;
    ld_rx_exact := None;
    ld_known := [] |}.
Definition loc_fr_SY : locale := merge loc_fr own_fr_SY.

(** fr.go:468-471 *)
Definition own_fr_TD : locale := Eval vm_compute in
  {| ld_name := lit "fr-TD"; ld_order := lit "DMY"; ld_nospacing := false; ld_splitter := 0;
    ld_charset := runes (lit "");
    ld_abbr := [];
    ld_simpl := [];
    ld_trans := [];
    ld_reltype := [];
    ld_relrx := [];
    ld_rx := None;
    ld_rx_exact := None;
    ld_known := [] |}.
Definition loc_fr_TD : locale := merge loc_fr own_fr_TD.

(** fr.go:473-476 *)
Definition own_fr_TG : locale := Eval vm_compute in
  {| ld_name := lit "fr-TG"; ld_order := lit "DMY"; ld_nospacing := false; ld_splitter := 0;
    ld_charset := runes (lit "");
    ld_abbr := [];
    ld_simpl := [];
    ld_trans := [];
    ld_reltype := [];
    ld_relrx := [];
    ld_rx := None;
    ld_rx_exact := None;
    ld_known := [] |}.
Definition loc_fr_TG : locale := merge loc_fr own_fr_TG.

(** fr.go:478-481 *)
Definition own_fr_TN : locale := Eval vm_compute in
  {| ld_name := lit "fr-TN"; ld_order := lit "DMY"; ld_nospacing := false; ld_splitter := 0;
    ld_charset := runes (lit "");
    ld_abbr := [];
    ld_simpl := [];
    ld_trans := [];
    ld_reltype := [];
    ld_relrx := [];
    ld_rx := None;
    ld_rx_exact := None;
    ld_known := [] |}.
Definition loc_fr_TN : locale := merge loc_fr own_fr_TN.

(** fr.go:483-486 *)
Definition own_fr_VU : locale := Eval vm_compute in
  {| ld_name := lit "fr-VU"; ld_order := lit "DMY"; ld_nospacing := false; ld_splitter := 0;
    ld_charset := runes (lit "");
    ld_abbr := [];
    ld_simpl := [];
    ld_trans := [];
    ld_reltype := [];
    ld_relrx := [];
    ld_rx := None;
    ld_rx_exact := None;
    ld_known := [] |}.
Definition loc_fr_VU : locale := merge loc_fr own_fr_VU.

(** fr.go:488-491 *)
Definition own_fr_WF : locale := Eval vm_compute in
  {| ld_name := lit "fr-WF"; ld_order := lit "DMY"; ld_nospacing := false; ld_splitter := 0;
    ld_charset := runes (lit "");
    ld_abbr := [];
    ld_simpl := [];
    ld_trans := [];
    ld_reltype := [];
    ld_relrx := [];
    ld_rx := None;
    ld_rx_exact := None;
    ld_known := [] |}.
Definition loc_fr_WF : locale := merge loc_fr own_fr_WF.

(** fr.go:493-496 *)
Definition own_fr_YT : locale := Eval vm_compute in
  {| ld_name := lit "fr-YT"; ld_order := lit "DMY"; ld_nospacing := false; ld_splitter := 0;
    ld_charset := runes (lit "");
    ld_abbr := [];
    ld_simpl := [];
    ld_trans := [];
    ld_reltype := [];
    ld_relrx := [];
    ld_rx := None;
    ld_rx_exact := None;
    ld_known := [] |}.
Definition loc_fr_YT : locale := merge loc_fr own_fr_YT.

(** fur.go:12-128 *)
Definition loc_fur : locale := Eval vm_compute in
  {| ld_name := lit "fur"; ld_order := lit "DMY"; ld_nospacing := false; ld_splitter := 0;
    ld_charset := runes (lit "bcdefghijklnorstuvwxyzâçêìîû");
    ld_abbr := [];
    ld_simpl := [];
    ld_trans := [(lit "dicembar", [lit "december"]);
    (lit "novembar", [lit "november"]);
    (lit "setemane", [lit "week"]);
    (lit "setembar", [lit "september"]);
    (lit "domenie", [lit "sunday"]);
    (lit "martars", [lit "tuesday"]);
    (lit "miercus", [lit "wednesday"]);
    (lit "fevrar", [lit "february"]);
    (lit "otubar", [lit "october"]);
    (lit "sabide", [lit "saturday"]);
    (lit "secont", [lit "second"]);
    (lit "vinars", [lit "friday"]);
    (lit "avost", [lit "august"]);
    (lit "avril", [lit "april"]);
    (lit "joibe", [lit "thursday"]);
    (lit "lunis", [lit "monday"]);
    (lit "minut", [lit "minute"]);
    (lit "zenar", [lit "january"]);
    (lit "jugn", [lit "june"]);
    (lit "marc", [lit "march"]);
    (lit "avo", [lit "august"]);
    (lit "avr", [lit "april"]);
    (lit "dic", [lit "december"]);
    (lit "dom", [lit "sunday"]);
    (lit "fev", [lit "february"]);
    (lit "gmt", [lit "gmt"]);
    (lit "joi", [lit "thursday"]);
    (lit "jug", [lit "june"]);
    (lit "lui", [lit "july"]);
    (lit "lun", [lit "monday"]);
    (lit "mai", [lit "may"]);
    (lit "mar", [lit "march"; lit "tuesday"]);
    (lit "mes", [lit "month"]);
    (lit "mie", [lit "wednesday"]);
    (lit "nov", [lit "november"]);
    (lit "ore", [lit "hour"]);
    (lit "otu", [lit "october"]);
    (lit "sab", [lit "saturday"]);
    (lit "set", [lit "september"]);
    (lit "utc", [lit "utc"]);
    (lit "vin", [lit "friday"]);
    (lit "zen", [lit "january"]);
    (lit "am", [lit "am"]);
    (lit "an", [lit "year"]);
    (lit "di", [lit "day"]);
    (lit "pm", [lit "pm"]);
    (lit " ", [lit " "]);
    (lit "'", [lit ""]);
    (lit "+", [lit "+"]);
    (lit ",", [lit ""]);
    (lit "-", [lit "-"]);
    (lit ".", [lit "."]);
    (lit "/", [lit "/"]);
    (lit ":", [lit ":"]);
    (lit ";", [lit ""]);
    (lit "@", [lit ""]);
    (lit "[", [lit ""]);
    (lit "]", [lit ""]);
    (lit "a", [lit "am"]);
    (lit "p", [lit "pm"]);
    (lit "z", [lit "z"]);
    (lit "|", [lit ""])];
    ld_reltype := [(lit "this minute", lit "0 minute ago");
    (lit "last month", lit "1 month ago");
    (lit "next month", lit "in 1 month");
    (lit "this month", lit "0 month ago");
    (lit "last week", lit "1 week ago");
    (lit "last year", lit "1 year ago");
    (lit "next week", lit "in 1 week");
    (lit "next year", lit "in 1 year");
    (lit "this hour", lit "0 hour ago");
    (lit "this week", lit "0 week ago");
    (lit "this year", lit "0 year ago");
    (lit "doman", lit "in 1 day");
    (lit "now", lit "0 second ago");
    (lit "vue", lit "0 day ago");
    (lit "ir", lit "1 day ago")];
    ld_relrx := [(rx "(?i)(\d+[.,]?\d*) setemanis indaur", lit "$1 week ago");
    (rx "(?i)(\d+[.,]?\d*) setemane indaur", lit "$1 week ago");
    (rx "(?i)(\d+[.,]?\d*) zornadis indaur", lit "$1 day ago");
    (rx "(?i)ca di (\d+[.,]?\d*) setemanis", lit "in $1 week");
    (rx "(?i)(\d+[.,]?\d*) seconts indaur", lit "$1 second ago");
    (rx "(?i)(\d+[.,]?\d*) zornade indaur", lit "$1 day ago");
    (rx "(?i)ca di (\d+[.,]?\d*) setemane", lit "in $1 week");
    (rx "(?i)ca di (\d+[.,]?\d*) zornadis", lit "in $1 day");
    (rx "(?i)(\d+[.,]?\d*) minuts indaur", lit "$1 minute ago");
    (rx "(?i)(\d+[.,]?\d*) secont indaur", lit "$1 second ago");
    (rx "(?i)ca di (\d+[.,]?\d*) seconts", lit "in $1 second");
    (rx "(?i)ca di (\d+[.,]?\d*) zornade", lit "in $1 day");
    (rx "(?i)(\d+[.,]?\d*) minut indaur", lit "$1 minute ago");
    (rx "(?i)ca di (\d+[.,]?\d*) minuts", lit "in $1 minute");
    (rx "(?i)ca di (\d+[.,]?\d*) secont", lit "in $1 second");
    (rx "(?i)(\d+[.,]?\d*) agns indaur", lit "$1 year ago");
    (rx "(?i)(\d+[.,]?\d*) oris indaur", lit "$1 hour ago");
    (rx "(?i)ca di (\d+[.,]?\d*) minut", lit "in $1 minute");
    (rx "(?i)(\d+[.,]?\d*) mes indaur", lit "$1 month ago");
    (rx "(?i)(\d+[.,]?\d*) ore indaur", lit "$1 hour ago");
    (rx "(?i)ca di (\d+[.,]?\d*) agns", lit "in $1 year");
    (rx "(?i)ca di (\d+[.,]?\d*) oris", lit "in $1 hour");
    (rx "(?i)(\d+[.,]?\d*) an indaur", lit "$1 year ago");
    (rx "(?i)ca di (\d+[.,]?\d*) mes", lit "in $1 month");
    (rx "(?i)ca di (\d+[.,]?\d*) ore", lit "in $1 hour");
    (rx "(?i)ca di (\d+[.,]?\d*) an", lit "in $1 year")];
    ld_rx := Some (rx "(?i)(\A|[^\pL\pM\d]|_)(\d+[.,]?\d* setemanis indaur|\d+[.,]?\d* setemane indaur|\d+[.,]?\d* zornadis indaur|ca di \d+[.,]?\d* setemanis|\d+[.,]?\d* seconts indaur|\d+[.,]?\d* zornade indaur|ca di \d+[.,]?\d* setemane|ca di \d+[.,]?\d* zornadis|\d+[.,]?\d* minuts indaur|\d+[.,]?\d* secont indaur|ca di \d+[.,]?\d* seconts|ca di \d+[.,]?\d* zornade|\d+[.,]?\d* minut indaur|ca di \d+[.,]?\d* minuts|ca di \d+[.,]?\d* secont|\d+[.,]?\d* agns indaur|\d+[.,]?\d* oris indaur|ca di \d+[.,]?\d* minut|\d+[.,]?\d* mes indaur|\d+[.,]?\d* ore indaur|ca di \d+[.,]?\d* agns|ca di \d+[.,]?\d* oris|\d+[.,]?\d* an indaur|ca di \d+[.,]?\d* mes|ca di \d+[.,]?\d* ore|ca di \d+[.,]?\d* an)(\z|[^\pL\pM\d]|_)");
    ld_rx_exact := Some (rx "(?i)^(\d+[.,]?\d* setemanis indaur|\d+[.,]?\d* setemane indaur|\d+[.,]?\d* zornadis indaur|ca di \d+[.,]?\d* setemanis|\d+[.,]?\d* seconts indaur|\d+[.,]?\d* zornade indaur|ca di \d+[.,]?\d* setemane|ca di \d+[.,]?\d* zornadis|\d+[.,]?\d* minuts indaur|\d+[.,]?\d* secont indaur|ca di \d+[.,]?\d* seconts|ca di \d+[.,]?\d* zornade|\d+[.,]?\d* minut indaur|ca di \d+[.,]?\d* minuts|ca di \d+[.,]?\d* secont|\d+[.,]?\d* agns indaur|\d+[.,]?\d* oris indaur|ca di \d+[.,]?\d* minut|\d+[.,]?\d* mes indaur|\d+[.,]?\d* ore indaur|ca di \d+[.,]?\d* agns|ca di \d+[.,]?\d* oris|\d+[.,]?\d* an indaur|ca di \d+[.,]?\d* mes|ca di \d+[.,]?\d* ore|ca di \d+[.,]?\d* an)$");
    ld_known := [lit "this minute";
    lit "last month";
    lit "next month";
    lit "this month";
    lit "last week";
    lit "last year";
    lit "next week";
    lit "next year";
    lit "this hour";
    lit "this week";
    lit "this year";
    lit "dicembar";
    lit "novembar";
    lit "setemane";
    lit "setembar";
    lit "domenie";
    lit "martars";
    lit "miercus";
    lit "fevrar";
    lit "otubar";
    lit "sabide";
    lit "secont";
    lit "vinars";
    lit "avost";
    lit "avril";
    lit "doman";
    lit "joibe";
    lit "lunis";
    lit "minut";
    lit "zenar";
    lit "jugn";
    lit "marc";
    lit "avo";
    lit "avr";
    lit "dic";
    lit "dom";
    lit "fev";
    lit "gmt";
    lit "joi";
    lit "jug";
    lit "lui";
    lit "lun";
    lit "mai";
    lit "mar";
    lit "mes";
    lit "mie";
    lit "nov";
    lit "now";
    lit "ore";
    lit "otu";
    lit "sab";
    lit "set";
    lit "utc";
    lit "vin";
    lit "vue";
    lit "zen";
    lit "am";
    lit "an";
    lit "di";
    lit "ir";
    lit "pm";
    lit " ";
    lit "'";
    lit "+";
    lit ",";
    lit "-";
    lit ".";
    lit "/";
    lit ":";
    lit ";";
    lit "@";
    lit "[";
    lit "]";
    lit "a";
    lit "p";
    lit "z";
    lit "|"] |}.

(** fy.go:12-127 *)
Definition loc_fy : locale := Eval vm_compute in
  {| ld_name := lit "fy"; ld_order := lit "DMY"; ld_nospacing := false; ld_splitter := 0;
    ld_charset := runes (lit "bcdefghijklnorstuvwyzú");
    ld_abbr := [];
    ld_simpl := [];
    ld_trans := [(lit "febrewaris", [lit "february"]);
    (lit "jannewaris", [lit "january"]);
    (lit "tongersdei", [lit "thursday"]);
    (lit "septimber", [lit "september"]);
    (lit "augustus", [lit "august"]);
    (lit "desimber", [lit "december"]);
    (lit "novimber", [lit "november"]);
    (lit "woansdei", [lit "wednesday"]);
    (lit "moandei", [lit "monday"]);
    (lit "oktober", [lit "october"]);
    (lit "sekonde", [lit "second"]);
    (lit "tiisdei", [lit "tuesday"]);
    (lit "moanne", [lit "month"]);
    (lit "april", [lit "april"]);
    (lit "freed", [lit "friday"]);
    (lit "maaie", [lit "may"]);
    (lit "maart", [lit "march"]);
    (lit "minut", [lit "minute"]);
    (lit "snein", [lit "sunday"]);
    (lit "sneon", [lit "saturday"]);
    (lit "jier", [lit "year"]);
    (lit "july", [lit "july"]);
    (lit "juny", [lit "june"]);
    (lit "oere", [lit "hour"]);
    (lit "wike", [lit "week"]);
    (lit "apr", [lit "april"]);
    (lit "aug", [lit "august"]);
    (lit "dei", [lit "day"]);
    (lit "des", [lit "december"]);
    (lit "feb", [lit "february"]);
    (lit "gmt", [lit "gmt"]);
    (lit "jan", [lit "january"]);
    (lit "jul", [lit "july"]);
    (lit "jun", [lit "june"]);
    (lit "mai", [lit "may"]);
    (lit "mrt", [lit "march"]);
    (lit "nov", [lit "november"]);
    (lit "okt", [lit "october"]);
    (lit "sep", [lit "september"]);
    (lit "utc", [lit "utc"]);
    (lit "am", [lit "am"]);
    (lit "fr", [lit "friday"]);
    (lit "mo", [lit "monday"]);
    (lit "pm", [lit "pm"]);
    (lit "si", [lit "sunday"]);
    (lit "so", [lit "saturday"]);
    (lit "ti", [lit "tuesday"]);
    (lit "to", [lit "thursday"]);
    (lit "wo", [lit "wednesday"]);
    (lit " ", [lit " "]);
    (lit "'", [lit ""]);
    (lit "+", [lit "+"]);
    (lit ",", [lit ""]);
    (lit "-", [lit "-"]);
    (lit ".", [lit "."]);
    (lit "/", [lit "/"]);
    (lit ":", [lit ":"]);
    (lit ";", [lit ""]);
    (lit "@", [lit ""]);
    (lit "[", [lit ""]);
    (lit "]", [lit ""]);
    (lit "z", [lit "z"]);
    (lit "|", [lit ""])];
    ld_reltype := [(lit "folgjende moanne", lit "in 1 month");
    (lit "foarige moanne", lit "1 month ago");
    (lit "folgjende wike", lit "in 1 week");
    (lit "folgjend jier", lit "in 1 year");
    (lit "dizze moanne", lit "0 month ago");
    (lit "foarich jier", lit "1 year ago");
    (lit "foarige wike", lit "1 week ago");
    (lit "this minute", lit "0 minute ago");
    (lit "dizze wike", lit "0 week ago");
    (lit "this hour", lit "0 hour ago");
    (lit "dit jier", lit "0 year ago");
    (lit "gisteren", lit "1 day ago");
    (lit "vandaag", lit "0 day ago");
    (lit "morgen", lit "in 1 day");
    (lit "nu", lit "0 second ago")];
    ld_relrx := [(rx "(?i)(\d+[.,]?\d*) sekonden lyn", lit "$1 second ago");
    (rx "(?i)oer (\d+[.,]?\d*) sekonden", lit "in $1 second");
    (rx "(?i)(\d+[.,]?\d*) minuten lyn", lit "$1 minute ago");
    (rx "(?i)(\d+[.,]?\d*) moannen lyn", lit "$1 month ago");
    (rx "(?i)(\d+[.,]?\d*) sekonde lyn", lit "$1 second ago");
    (rx "(?i)oer (\d+[.,]?\d*) minuten", lit "in $1 minute");
    (rx "(?i)oer (\d+[.,]?\d*) moannen", lit "in $1 month");
    (rx "(?i)oer (\d+[.,]?\d*) sekonde", lit "in $1 second");
    (rx "(?i)(\d+[.,]?\d*) moanne lyn", lit "$1 month ago");
    (rx "(?i)oer (\d+[.,]?\d*) moanne", lit "in $1 month");
    (rx "(?i)(\d+[.,]?\d*) deien lyn", lit "$1 day ago");
    (rx "(?i)(\d+[.,]?\d*) minut lyn", lit "$1 minute ago");
    (rx "(?i)(\d+[.,]?\d*) wiken lyn", lit "$1 week ago");
    (rx "(?i)oer (\d+[.,]?\d*) deien", lit "in $1 day");
    (rx "(?i)oer (\d+[.,]?\d*) minut", lit "in $1 minute");
    (rx "(?i)oer (\d+[.,]?\d*) wiken", lit "in $1 week");
    (rx "(?i)(\d+[.,]?\d*) jier lyn", lit "$1 year ago");
    (rx "(?i)(\d+[.,]?\d*) oere lyn", lit "$1 hour ago");
    (rx "(?i)(\d+[.,]?\d*) wike lyn", lit "$1 week ago");
    (rx "(?i)oer (\d+[.,]?\d*) jier", lit "in $1 year");
    (rx "(?i)oer (\d+[.,]?\d*) oere", lit "in $1 hour");
    (rx "(?i)oer (\d+[.,]?\d*) wike", lit "in $1 week");
    (rx "(?i)(\d+[.,]?\d*) dei lyn", lit "$1 day ago");
    (rx "(?i)oer (\d+[.,]?\d*) dei", lit "in $1 day")];
    ld_rx := Some (rx "(?i)(\A|[^\pL\pM\d]|_)(\d+[.,]?\d* sekonden lyn|oer \d+[.,]?\d* sekonden|\d+[.,]?\d* minuten lyn|\d+[.,]?\d* moannen lyn|\d+[.,]?\d* sekonde lyn|oer \d+[.,]?\d* minuten|oer \d+[.,]?\d* moannen|oer \d+[.,]?\d* sekonde|\d+[.,]?\d* moanne lyn|oer \d+[.,]?\d* moanne|\d+[.,]?\d* deien lyn|\d+[.,]?\d* minut lyn|\d+[.,]?\d* wiken lyn|oer \d+[.,]?\d* deien|oer \d+[.,]?\d* minut|oer \d+[.,]?\d* wiken|\d+[.,]?\d* jier lyn|\d+[.,]?\d* oere lyn|\d+[.,]?\d* wike lyn|oer \d+[.,]?\d* jier|oer \d+[.,]?\d* oere|oer \d+[.,]?\d* wike|\d+[.,]?\d* dei lyn|oer \d+[.,]?\d* dei)(\z|[^\pL\pM\d]|_)");
    ld_rx_exact := Some (rx "(?i)^(\d+[.,]?\d* sekonden lyn|oer \d+[.,]?\d* sekonden|\d+[.,]?\d* minuten lyn|\d+[.,]?\d* moannen lyn|\d+[.,]?\d* sekonde lyn|oer \d+[.,]?\d* minuten|oer \d+[.,]?\d* moannen|oer \d+[.,]?\d* sekonde|\d+[.,]?\d* moanne lyn|oer \d+[.,]?\d* moanne|\d+[.,]?\d* deien lyn|\d+[.,]?\d* minut lyn|\d+[.,]?\d* wiken lyn|oer \d+[.,]?\d* deien|oer \d+[.,]?\d* minut|oer \d+[.,]?\d* wiken|\d+[.,]?\d* jier lyn|\d+[.,]?\d* oere lyn|\d+[.,]?\d* wike lyn|oer \d+[.,]?\d* jier|oer \d+[.,]?\d* oere|oer \d+[.,]?\d* wike|\d+[.,]?\d* dei lyn|oer \d+[.,]?\d* dei)$");
    ld_known := [lit "folgjende moanne";
    lit "foarige moanne";
    lit "folgjende wike";
    lit "folgjend jier";
    lit "dizze moanne";
    lit "foarich jier";
    lit "foarige wike";
    lit "this minute";
    lit "dizze wike";
    lit "febrewaris";
    lit "jannewaris";
    lit "tongersdei";
    lit "septimber";
    lit "this hour";
    lit "augustus";
    lit "desimber";
    lit "dit jier";
    lit "gisteren";
    lit "novimber";
    lit "woansdei";
    lit "moandei";
    lit "oktober";
    lit "sekonde";
    lit "tiisdei";
    lit "vandaag";
    lit "moanne";
    lit "morgen";
    lit "april";
    lit "freed";
    lit "maaie";
    lit "maart";
    lit "minut";
    lit "snein";
    lit "sneon";
    lit "jier";
    lit "july";
    lit "juny";
    lit "oere";
    lit "wike";
    lit "apr";
    lit "aug";
    lit "dei";
    lit "des";
    lit "feb";
    lit "gmt";
    lit "jan";
    lit "jul";
    lit "jun";
    lit "mai";
    lit "mrt";
    lit "nov";
    lit "okt";
    lit "sep";
    lit "utc";
    lit "am";
    lit "fr";
    lit "mo";
    lit "nu";
    lit "pm";
    lit "si";
    lit "so";
    lit "ti";
    lit "to";
    lit "wo";
    lit " ";
    lit "'";
    lit "+";
    lit ",";
    lit "-";
    lit ".";
    lit "/";
    lit ":";
    lit ";";
    lit "@";
    lit "[";
    lit "]";
    lit "z";
    lit "|"] |}.

(** all patterns above are accepted by the syntax parser *)
Example patterns_ok : forallb (fun s => match parse_regex s with Some _ => true | None => false end)
  [lit "(?i)(\A|[^\pL\pM\d]|_)(\d+[.,]?\d* hilabete barru|duela \d+[.,]?\d* hilabete|\d+[.,]?\d* segundo barru|duela \d+[.,]?\d* segundo|\d+[.,]?\d* minutu barru|duela \d+[.,]?\d* minutu|\d+[.,]?\d* aste barru|\d+[.,]?\d* egun barru|\d+[.,]?\d* ordu barru|\d+[.,]?\d* urte barru|duela \d+[.,]?\d* aste|duela \d+[.,]?\d* egun|duela \d+[.,]?\d* ordu|duela \d+[.,]?\d* urte)(\z|[^\pL\pM\d]|_)";
  lit "(?i)(\A|[^\pL\pM\d]|_)(\d+[.,]?\d* minuttir siðan|\d+[.,]?\d* manaðir siðan|\d+[.,]?\d* minutt siðan|\d+[.,]?\d* sekund siðan|\d+[.,]?\d* dagar siðan|\d+[.,]?\d* dagur siðan|\d+[.,]?\d* manað siðan|\d+[.,]?\d* timar siðan|\d+[.,]?\d* vikur siðan|um \d+[.,]?\d* minuttir|\d+[.,]?\d* timi siðan|\d+[.,]?\d* vika siðan|um \d+[.,]?\d* manaðir|\d+[.,]?\d* min siðan|\d+[.,]?\d* mnð siðan|\d+[.,]?\d* sek siðan|um \d+[.,]?\d* minutt|um \d+[.,]?\d* sekund|\d+[.,]?\d* ar siðan|\d+[.,]?\d* da siðan|\d+[.,]?\d* vi siðan|um \d+[.,]?\d* dagar|um \d+[.,]?\d* manað|um \d+[.,]?\d* timar|um \d+[.,]?\d* vikur|\d+[.,]?\d* d siðan|\d+[.,]?\d* m siðan|\d+[.,]?\d* s siðan|\d+[.,]?\d* t siðan|\d+[.,]?\d* v siðan|um \d+[.,]?\d* tima|um \d+[.,]?\d* viku|um \d+[.,]?\d* dag|um \d+[.,]?\d* min|um \d+[.,]?\d* mnð|um \d+[.,]?\d* sek|um \d+[.,]?\d* ar|um \d+[.,]?\d* da|um \d+[.,]?\d* vi|um \d+[.,]?\d* d|um \d+[.,]?\d* m|um \d+[.,]?\d* s|um \d+[.,]?\d* t|um \d+[.,]?\d* v)(\z|[^\pL\pM\d]|_)";
  lit "(?i)(\A|[^\pL\pM\d]|_)(\d+[.,]?\d* segundo ang nakalipas|\d+[.,]?\d* linggo ang nakalipas|\d+[.,]?\d* minuto ang nakalipas|\d+[.,]?\d* buwan ang nakalipas|\d+[.,]?\d* araw ang nakalipas|\d+[.,]?\d* oras ang nakalipas|\d+[.,]?\d* taon ang nakalipas|\d+[.,]?\d* min ang nakalipas|\d+[.,]?\d* seg ang nakalipas|\d+[.,]?\d* oras nakalipas|\d+[.,]?\d* seg nakalipas|sa \d+[.,]?\d* segundo|sa \d+[.,]?\d* linggo|sa \d+[.,]?\d* minuto|sa \d+[.,]?\d* buwan|sa \d+[.,]?\d* araw|sa \d+[.,]?\d* oras|sa \d+[.,]?\d* taon|sa \d+[.,]?\d* min|sa \d+[.,]?\d* seg)(\z|[^\pL\pM\d]|_)";
  lit "(?i)(\A|[^\pL\pM\d]|_)(\d+[.,]?\d* sekonden lyn|oer \d+[.,]?\d* sekonden|\d+[.,]?\d* minuten lyn|\d+[.,]?\d* moannen lyn|\d+[.,]?\d* sekonde lyn|oer \d+[.,]?\d* minuten|oer \d+[.,]?\d* moannen|oer \d+[.,]?\d* sekonde|\d+[.,]?\d* moanne lyn|oer \d+[.,]?\d* moanne|\d+[.,]?\d* deien lyn|\d+[.,]?\d* minut lyn|\d+[.,]?\d* wiken lyn|oer \d+[.,]?\d* deien|oer \d+[.,]?\d* minut|oer \d+[.,]?\d* wiken|\d+[.,]?\d* jier lyn|\d+[.,]?\d* oere lyn|\d+[.,]?\d* wike lyn|oer \d+[.,]?\d* jier|oer \d+[.,]?\d* oere|oer \d+[.,]?\d* wike|\d+[.,]?\d* dei lyn|oer \d+[.,]?\d* dei)(\z|[^\pL\pM\d]|_)";
  lit "(?i)(\A|[^\pL\pM\d]|_)(\d+[.,]?\d* sekundi parast|\d+[.,]?\d* minuti parast|\d+[.,]?\d* nadala parast|\d+[.,]?\d* aasta parast|\d+[.,]?\d* paeva parast|\d+[.,]?\d* sekundi eest|\d+[.,]?\d* tunni parast|\d+[.,]?\d* minuti eest|\d+[.,]?\d* nadala eest|\d+[.,]?\d* aasta eest|\d+[.,]?\d* kuu parast|\d+[.,]?\d* min parast|\d+[.,]?\d* nad parast|\d+[.,]?\d* paeva eest|\d+[.,]?\d* sek parast|\d+[.,]?\d* tunni eest|\d+[.,]?\d* a parast|\d+[.,]?\d* k parast|\d+[.,]?\d* kuu eest|\d+[.,]?\d* min eest|\d+[.,]?\d* nad eest|\d+[.,]?\d* p parast|\d+[.,]?\d* s parast|\d+[.,]?\d* sek eest|\d+[.,]?\d* t parast|\d+[.,]?\d* a eest|\d+[.,]?\d* k eest|\d+[.,]?\d* p eest|\d+[.,]?\d* s eest|\d+[.,]?\d* t eest)(\z|[^\pL\pM\d]|_)";
  lit "(?i)(\A|[^\pL\pM\d]|_)(\d+[.,]?\d* setemanis indaur|\d+[.,]?\d* setemane indaur|\d+[.,]?\d* zornadis indaur|ca di \d+[.,]?\d* setemanis|\d+[.,]?\d* seconts indaur|\d+[.,]?\d* zornade indaur|ca di \d+[.,]?\d* setemane|ca di \d+[.,]?\d* zornadis|\d+[.,]?\d* minuts indaur|\d+[.,]?\d* secont indaur|ca di \d+[.,]?\d* seconts|ca di \d+[.,]?\d* zornade|\d+[.,]?\d* minut indaur|ca di \d+[.,]?\d* minuts|ca di \d+[.,]?\d* secont|\d+[.,]?\d* agns indaur|\d+[.,]?\d* oris indaur|ca di \d+[.,]?\d* minut|\d+[.,]?\d* mes indaur|\d+[.,]?\d* ore indaur|ca di \d+[.,]?\d* agns|ca di \d+[.,]?\d* oris|\d+[.,]?\d* an indaur|ca di \d+[.,]?\d* mes|ca di \d+[.,]?\d* ore|ca di \d+[.,]?\d* an)(\z|[^\pL\pM\d]|_)";
  lit "(?i)(\A|[^\pL\pM\d]|_)(\d+[.,]?\d* ثانیه بعد|\d+[.,]?\d* ثانیه پیش|\d+[.,]?\d* دقیقه بعد|\d+[.,]?\d* دقیقه پیش|\d+[.,]?\d* ساعت بعد|\d+[.,]?\d* ساعت پیش|\d+[.,]?\d* هفته بعد|\d+[.,]?\d* هفته پیش|\d+[.,]?\d* روز بعد|\d+[.,]?\d* روز پیش|\d+[.,]?\d* سال بعد|\d+[.,]?\d* سال پیش|\d+[.,]?\d* ماه بعد|\d+[.,]?\d* ماه پیش)(\z|[^\pL\pM\d]|_)";
  lit "(?i)(\A|[^\pL\pM\d]|_)(dentro de \d+[.,]?\d* segundos|dentro de \d+[.,]?\d* minutos|dentro de \d+[.,]?\d* segundo|dentro de \d+[.,]?\d* semanas|dentro de \d+[.,]?\d* minuto|dentro de \d+[.,]?\d* semana|dentro de \d+[.,]?\d* horas|dentro de \d+[.,]?\d* meses|dentro de \d+[.,]?\d* anos|dentro de \d+[.,]?\d* dias|dentro de \d+[.,]?\d* hora|dentro de \d+[.,]?\d* ano|dentro de \d+[.,]?\d* dia|dentro de \d+[.,]?\d* mes|dentro de \d+[.,]?\d* min|dentro de \d+[.,]?\d* seg|dentro de \d+[.,]?\d* sem|hace \d+[.,]?\d* segundos|hace \d+[.,]?\d* minutos|hace \d+[.,]?\d* segundo|hace \d+[.,]?\d* semanas|dentro de \d+[.,]?\d* a|dentro de \d+[.,]?\d* h|dentro de \d+[.,]?\d* m|dentro de \d+[.,]?\d* s|hace \d+[.,]?\d* minuto|hace \d+[.,]?\d* semana|hace \d+[.,]?\d* horas|hace \d+[.,]?\d* meses|hace \d+[.,]?\d* anos|hace \d+[.,]?\d* dias|hace \d+[.,]?\d* hora|hace \d+[.,]?\d* ano|hace \d+[.,]?\d* dia|hace \d+[.,]?\d* mes|hace \d+[.,]?\d* min|hace \d+[.,]?\d* seg|hace \d+[.,]?\d* sem|hace \d+[.,]?\d* a|hace \d+[.,]?\d* h|hace \d+[.,]?\d* m|hace \d+[.,]?\d* s)(\z|[^\pL\pM\d]|_)";
  lit "(?i)(\A|[^\pL\pM\d]|_)(dentro de \d+[.,]?\d* segundos|dentro de \d+[.,]?\d* minutos|dentro de \d+[.,]?\d* segundo|dentro de \d+[.,]?\d* semanas|dentro de \d+[.,]?\d* minuto|dentro de \d+[.,]?\d* semana|dentro de \d+[.,]?\d* horas|dentro de \d+[.,]?\d* meses|dentro de \d+[.,]?\d* anos|dentro de \d+[.,]?\d* dias|dentro de \d+[.,]?\d* hora|dentro de \d+[.,]?\d* ano|dentro de \d+[.,]?\d* dia|dentro de \d+[.,]?\d* mes|dentro de \d+[.,]?\d* min|dentro de \d+[.,]?\d* sem|hace \d+[.,]?\d* segundos|hace \d+[.,]?\d* minutos|hace \d+[.,]?\d* segundo|hace \d+[.,]?\d* semanas|dentro de \d+[.,]?\d* a|dentro de \d+[.,]?\d* h|dentro de \d+[.,]?\d* m|dentro de \d+[.,]?\d* s|hace \d+[.,]?\d* minuto|hace \d+[.,]?\d* semana|hace \d+[.,]?\d* horas|hace \d+[.,]?\d* meses|hace \d+[.,]?\d* anos|hace \d+[.,]?\d* dias|hace \d+[.,]?\d* hora|en \d+[.,]?\d* meses|hace \d+[.,]?\d* ano|hace \d+[.,]?\d* dia|hace \d+[.,]?\d* mes|hace \d+[.,]?\d* min|hace \d+[.,]?\d* sem|en \d+[.,]?\d* dias|en \d+[.,]?\d* dia|en \d+[.,]?\d* mes|en \d+[.,]?\d* min|en \d+[.,]?\d* sem|hace \d+[.,]?\d* a|hace \d+[.,]?\d* h|hace \d+[.,]?\d* m|hace \d+[.,]?\d* s|en \d+[.,]?\d* a|en \d+[.,]?\d* h|en \d+[.,]?\d* m|en \d+[.,]?\d* n|en \d+[.,]?\d* s)(\z|[^\pL\pM\d]|_)";
  lit "(?i)(\d+[.,]?\d*) a eest";
  lit "(?i)(\d+[.,]?\d*) a parast";
  lit "(?i)(\d+[.,]?\d*) aasta eest";
  lit "(?i)(\d+[.,]?\d*) aasta parast";
  lit "(?i)(\d+[.,]?\d*) agns indaur";
  lit "(?i)(\d+[.,]?\d*) an indaur";
  lit "(?i)(\d+[.,]?\d*) ar siðan";
  lit "(?i)(\d+[.,]?\d*) araw ang nakalipas";
  lit "(?i)(\d+[.,]?\d*) aste barru";
  lit "(?i)(\d+[.,]?\d*) buwan ang nakalipas";
  lit "(?i)(\d+[.,]?\d*) d siðan";
  lit "(?i)(\d+[.,]?\d*) da siðan";
  lit "(?i)(\d+[.,]?\d*) dagar siðan";
  lit "(?i)(\d+[.,]?\d*) dagur siðan";
  lit "(?i)(\d+[.,]?\d*) dei lyn";
  lit "(?i)(\d+[.,]?\d*) deien lyn";
  lit "(?i)(\d+[.,]?\d*) egun barru";
  lit "(?i)(\d+[.,]?\d*) hilabete barru";
  lit "(?i)(\d+[.,]?\d*) jier lyn";
  lit "(?i)(\d+[.,]?\d*) k eest";
  lit "(?i)(\d+[.,]?\d*) k parast";
  lit "(?i)(\d+[.,]?\d*) kuu eest";
  lit "(?i)(\d+[.,]?\d*) kuu parast";
  lit "(?i)(\d+[.,]?\d*) linggo ang nakalipas";
  lit "(?i)(\d+[.,]?\d*) m siðan";
  lit "(?i)(\d+[.,]?\d*) manað siðan";
  lit "(?i)(\d+[.,]?\d*) manaðir siðan";
  lit "(?i)(\d+[.,]?\d*) mes indaur";
  lit "(?i)(\d+[.,]?\d*) min ang nakalipas";
  lit "(?i)(\d+[.,]?\d*) min eest";
  lit "(?i)(\d+[.,]?\d*) min parast";
  lit "(?i)(\d+[.,]?\d*) min siðan";
  lit "(?i)(\d+[.,]?\d*) minut indaur";
  lit "(?i)(\d+[.,]?\d*) minut lyn";
  lit "(?i)(\d+[.,]?\d*) minuten lyn";
  lit "(?i)(\d+[.,]?\d*) minuti eest";
  lit "(?i)(\d+[.,]?\d*) minuti parast";
  lit "(?i)(\d+[.,]?\d*) minuto ang nakalipas";
  lit "(?i)(\d+[.,]?\d*) minuts indaur";
  lit "(?i)(\d+[.,]?\d*) minutt siðan";
  lit "(?i)(\d+[.,]?\d*) minuttir siðan";
  lit "(?i)(\d+[.,]?\d*) minutu barru";
  lit "(?i)(\d+[.,]?\d*) mnð siðan";
  lit "(?i)(\d+[.,]?\d*) moanne lyn";
  lit "(?i)(\d+[.,]?\d*) moannen lyn";
  lit "(?i)(\d+[.,]?\d*) nad eest";
  lit "(?i)(\d+[.,]?\d*) nad parast";
  lit "(?i)(\d+[.,]?\d*) nadala eest";
  lit "(?i)(\d+[.,]?\d*) nadala parast";
  lit "(?i)(\d+[.,]?\d*) oere lyn";
  lit "(?i)(\d+[.,]?\d*) oras ang nakalipas";
  lit "(?i)(\d+[.,]?\d*) oras nakalipas";
  lit "(?i)(\d+[.,]?\d*) ordu barru";
  lit "(?i)(\d+[.,]?\d*) ore indaur";
  lit "(?i)(\d+[.,]?\d*) oris indaur";
  lit "(?i)(\d+[.,]?\d*) p eest";
  lit "(?i)(\d+[.,]?\d*) p parast";
  lit "(?i)(\d+[.,]?\d*) paeva eest";
  lit "(?i)(\d+[.,]?\d*) paeva parast";
  lit "(?i)(\d+[.,]?\d*) s eest";
  lit "(?i)(\d+[.,]?\d*) s parast";
  lit "(?i)(\d+[.,]?\d*) s siðan";
  lit "(?i)(\d+[.,]?\d*) secont indaur";
  lit "(?i)(\d+[.,]?\d*) seconts indaur";
  lit "(?i)(\d+[.,]?\d*) seg ang nakalipas";
  lit "(?i)(\d+[.,]?\d*) seg nakalipas";
  lit "(?i)(\d+[.,]?\d*) segundo ang nakalipas";
  lit "(?i)(\d+[.,]?\d*) segundo barru";
  lit "(?i)(\d+[.,]?\d*) sek eest";
  lit "(?i)(\d+[.,]?\d*) sek parast";
  lit "(?i)(\d+[.,]?\d*) sek siðan";
  lit "(?i)(\d+[.,]?\d*) sekonde lyn";
  lit "(?i)(\d+[.,]?\d*) sekonden lyn";
  lit "(?i)(\d+[.,]?\d*) sekund siðan";
  lit "(?i)(\d+[.,]?\d*) sekundi eest";
  lit "(?i)(\d+[.,]?\d*) sekundi parast";
  lit "(?i)(\d+[.,]?\d*) setemane indaur";
  lit "(?i)(\d+[.,]?\d*) setemanis indaur";
  lit "(?i)(\d+[.,]?\d*) t eest";
  lit "(?i)(\d+[.,]?\d*) t parast";
  lit "(?i)(\d+[.,]?\d*) t siðan";
  lit "(?i)(\d+[.,]?\d*) taon ang nakalipas";
  lit "(?i)(\d+[.,]?\d*) timar siðan";
  lit "(?i)(\d+[.,]?\d*) timi siðan";
  lit "(?i)(\d+[.,]?\d*) tunni eest";
  lit "(?i)(\d+[.,]?\d*) tunni parast";
  lit "(?i)(\d+[.,]?\d*) urte barru";
  lit "(?i)(\d+[.,]?\d*) v siðan";
  lit "(?i)(\d+[.,]?\d*) vi siðan";
  lit "(?i)(\d+[.,]?\d*) vika siðan";
  lit "(?i)(\d+[.,]?\d*) vikur siðan";
  lit "(?i)(\d+[.,]?\d*) wike lyn";
  lit "(?i)(\d+[.,]?\d*) wiken lyn";
  lit "(?i)(\d+[.,]?\d*) zornade indaur";
  lit "(?i)(\d+[.,]?\d*) zornadis indaur";
  lit "(?i)(\d+[.,]?\d*) ثانیه بعد";
  lit "(?i)(\d+[.,]?\d*) ثانیه پیش";
  lit "(?i)(\d+[.,]?\d*) دقیقه بعد";
  lit "(?i)(\d+[.,]?\d*) دقیقه پیش";
  lit "(?i)(\d+[.,]?\d*) روز بعد";
  lit "(?i)(\d+[.,]?\d*) روز پیش";
  lit "(?i)(\d+[.,]?\d*) ساعت بعد";
  lit "(?i)(\d+[.,]?\d*) ساعت پیش";
  lit "(?i)(\d+[.,]?\d*) سال بعد";
  lit "(?i)(\d+[.,]?\d*) سال پیش";
  lit "(?i)(\d+[.,]?\d*) ماه بعد";
  lit "(?i)(\d+[.,]?\d*) ماه پیش";
  lit "(?i)(\d+[.,]?\d*) هفته بعد";
  lit "(?i)(\d+[.,]?\d*) هفته پیش";
  lit "(?i)^(\d+[.,]?\d* hilabete barru|duela \d+[.,]?\d* hilabete|\d+[.,]?\d* segundo barru|duela \d+[.,]?\d* segundo|\d+[.,]?\d* minutu barru|duela \d+[.,]?\d* minutu|\d+[.,]?\d* aste barru|\d+[.,]?\d* egun barru|\d+[.,]?\d* ordu barru|\d+[.,]?\d* urte barru|duela \d+[.,]?\d* aste|duela \d+[.,]?\d* egun|duela \d+[.,]?\d* ordu|duela \d+[.,]?\d* urte)$";
  lit "(?i)^(\d+[.,]?\d* minuttir siðan|\d+[.,]?\d* manaðir siðan|\d+[.,]?\d* minutt siðan|\d+[.,]?\d* sekund siðan|\d+[.,]?\d* dagar siðan|\d+[.,]?\d* dagur siðan|\d+[.,]?\d* manað siðan|\d+[.,]?\d* timar siðan|\d+[.,]?\d* vikur siðan|um \d+[.,]?\d* minuttir|\d+[.,]?\d* timi siðan|\d+[.,]?\d* vika siðan|um \d+[.,]?\d* manaðir|\d+[.,]?\d* min siðan|\d+[.,]?\d* mnð siðan|\d+[.,]?\d* sek siðan|um \d+[.,]?\d* minutt|um \d+[.,]?\d* sekund|\d+[.,]?\d* ar siðan|\d+[.,]?\d* da siðan|\d+[.,]?\d* vi siðan|um \d+[.,]?\d* dagar|um \d+[.,]?\d* manað|um \d+[.,]?\d* timar|um \d+[.,]?\d* vikur|\d+[.,]?\d* d siðan|\d+[.,]?\d* m siðan|\d+[.,]?\d* s siðan|\d+[.,]?\d* t siðan|\d+[.,]?\d* v siðan|um \d+[.,]?\d* tima|um \d+[.,]?\d* viku|um \d+[.,]?\d* dag|um \d+[.,]?\d* min|um \d+[.,]?\d* mnð|um \d+[.,]?\d* sek|um \d+[.,]?\d* ar|um \d+[.,]?\d* da|um \d+[.,]?\d* vi|um \d+[.,]?\d* d|um \d+[.,]?\d* m|um \d+[.,]?\d* s|um \d+[.,]?\d* t|um \d+[.,]?\d* v)$";
  lit "(?i)^(\d+[.,]?\d* segundo ang nakalipas|\d+[.,]?\d* linggo ang nakalipas|\d+[.,]?\d* minuto ang nakalipas|\d+[.,]?\d* buwan ang nakalipas|\d+[.,]?\d* araw ang nakalipas|\d+[.,]?\d* oras ang nakalipas|\d+[.,]?\d* taon ang nakalipas|\d+[.,]?\d* min ang nakalipas|\d+[.,]?\d* seg ang nakalipas|\d+[.,]?\d* oras nakalipas|\d+[.,]?\d* seg nakalipas|sa \d+[.,]?\d* segundo|sa \d+[.,]?\d* linggo|sa \d+[.,]?\d* minuto|sa \d+[.,]?\d* buwan|sa \d+[.,]?\d* araw|sa \d+[.,]?\d* oras|sa \d+[.,]?\d* taon|sa \d+[.,]?\d* min|sa \d+[.,]?\d* seg)$";
  lit "(?i)^(\d+[.,]?\d* sekonden lyn|oer \d+[.,]?\d* sekonden|\d+[.,]?\d* minuten lyn|\d+[.,]?\d* moannen lyn|\d+[.,]?\d* sekonde lyn|oer \d+[.,]?\d* minuten|oer \d+[.,]?\d* moannen|oer \d+[.,]?\d* sekonde|\d+[.,]?\d* moanne lyn|oer \d+[.,]?\d* moanne|\d+[.,]?\d* deien lyn|\d+[.,]?\d* minut lyn|\d+[.,]?\d* wiken lyn|oer \d+[.,]?\d* deien|oer \d+[.,]?\d* minut|oer \d+[.,]?\d* wiken|\d+[.,]?\d* jier lyn|\d+[.,]?\d* oere lyn|\d+[.,]?\d* wike lyn|oer \d+[.,]?\d* jier|oer \d+[.,]?\d* oere|oer \d+[.,]?\d* wike|\d+[.,]?\d* dei lyn|oer \d+[.,]?\d* dei)$";
  lit "(?i)^(\d+[.,]?\d* sekundi parast|\d+[.,]?\d* minuti parast|\d+[.,]?\d* nadala parast|\d+[.,]?\d* aasta parast|\d+[.,]?\d* paeva parast|\d+[.,]?\d* sekundi eest|\d+[.,]?\d* tunni parast|\d+[.,]?\d* minuti eest|\d+[.,]?\d* nadala eest|\d+[.,]?\d* aasta eest|\d+[.,]?\d* kuu parast|\d+[.,]?\d* min parast|\d+[.,]?\d* nad parast|\d+[.,]?\d* paeva eest|\d+[.,]?\d* sek parast|\d+[.,]?\d* tunni eest|\d+[.,]?\d* a parast|\d+[.,]?\d* k parast|\d+[.,]?\d* kuu eest|\d+[.,]?\d* min eest|\d+[.,]?\d* nad eest|\d+[.,]?\d* p parast|\d+[.,]?\d* s parast|\d+[.,]?\d* sek eest|\d+[.,]?\d* t parast|\d+[.,]?\d* a eest|\d+[.,]?\d* k eest|\d+[.,]?\d* p eest|\d+[.,]?\d* s eest|\d+[.,]?\d* t eest)$";
  lit "(?i)^(\d+[.,]?\d* setemanis indaur|\d+[.,]?\d* setemane indaur|\d+[.,]?\d* zornadis indaur|ca di \d+[.,]?\d* setemanis|\d+[.,]?\d* seconts indaur|\d+[.,]?\d* zornade indaur|ca di \d+[.,]?\d* setemane|ca di \d+[.,]?\d* zornadis|\d+[.,]?\d* minuts indaur|\d+[.,]?\d* secont indaur|ca di \d+[.,]?\d* seconts|ca di \d+[.,]?\d* zornade|\d+[.,]?\d* minut indaur|ca di \d+[.,]?\d* minuts|ca di \d+[.,]?\d* secont|\d+[.,]?\d* agns indaur|\d+[.,]?\d* oris indaur|ca di \d+[.,]?\d* minut|\d+[.,]?\d* mes indaur|\d+[.,]?\d* ore indaur|ca di \d+[.,]?\d* agns|ca di \d+[.,]?\d* oris|\d+[.,]?\d* an indaur|ca di \d+[.,]?\d* mes|ca di \d+[.,]?\d* ore|ca di \d+[.,]?\d* an)$";
  lit "(?i)^(\d+[.,]?\d* ثانیه بعد|\d+[.,]?\d* ثانیه پیش|\d+[.,]?\d* دقیقه بعد|\d+[.,]?\d* دقیقه پیش|\d+[.,]?\d* ساعت بعد|\d+[.,]?\d* ساعت پیش|\d+[.,]?\d* هفته بعد|\d+[.,]?\d* هفته پیش|\d+[.,]?\d* روز بعد|\d+[.,]?\d* روز پیش|\d+[.,]?\d* سال بعد|\d+[.,]?\d* سال پیش|\d+[.,]?\d* ماه بعد|\d+[.,]?\d* ماه پیش)$";
  lit "(?i)^(dentro de \d+[.,]?\d* segundos|dentro de \d+[.,]?\d* minutos|dentro de \d+[.,]?\d* segundo|dentro de \d+[.,]?\d* semanas|dentro de \d+[.,]?\d* minuto|dentro de \d+[.,]?\d* semana|dentro de \d+[.,]?\d* horas|dentro de \d+[.,]?\d* meses|dentro de \d+[.,]?\d* anos|dentro de \d+[.,]?\d* dias|dentro de \d+[.,]?\d* hora|dentro de \d+[.,]?\d* ano|dentro de \d+[.,]?\d* dia|dentro de \d+[.,]?\d* mes|dentro de \d+[.,]?\d* min|dentro de \d+[.,]?\d* seg|dentro de \d+[.,]?\d* sem|hace \d+[.,]?\d* segundos|hace \d+[.,]?\d* minutos|hace \d+[.,]?\d* segundo|hace \d+[.,]?\d* semanas|dentro de \d+[.,]?\d* a|dentro de \d+[.,]?\d* h|dentro de \d+[.,]?\d* m|dentro de \d+[.,]?\d* s|hace \d+[.,]?\d* minuto|hace \d+[.,]?\d* semana|hace \d+[.,]?\d* horas|hace \d+[.,]?\d* meses|hace \d+[.,]?\d* anos|hace \d+[.,]?\d* dias|hace \d+[.,]?\d* hora|hace \d+[.,]?\d* ano|hace \d+[.,]?\d* dia|hace \d+[.,]?\d* mes|hace \d+[.,]?\d* min|hace \d+[.,]?\d* seg|hace \d+[.,]?\d* sem|hace \d+[.,]?\d* a|hace \d+[.,]?\d* h|hace \d+[.,]?\d* m|hace \d+[.,]?\d* s)$";
  lit "(?i)^(dentro de \d+[.,]?\d* segundos|dentro de \d+[.,]?\d* minutos|dentro de \d+[.,]?\d* segundo|dentro de \d+[.,]?\d* semanas|dentro de \d+[.,]?\d* minuto|dentro de \d+[.,]?\d* semana|dentro de \d+[.,]?\d* horas|dentro de \d+[.,]?\d* meses|dentro de \d+[.,]?\d* anos|dentro de \d+[.,]?\d* dias|dentro de \d+[.,]?\d* hora|dentro de \d+[.,]?\d* ano|dentro de \d+[.,]?\d* dia|dentro de \d+[.,]?\d* mes|dentro de \d+[.,]?\d* min|dentro de \d+[.,]?\d* sem|hace \d+[.,]?\d* segundos|hace \d+[.,]?\d* minutos|hace \d+[.,]?\d* segundo|hace \d+[.,]?\d* semanas|dentro de \d+[.,]?\d* a|dentro de \d+[.,]?\d* h|dentro de \d+[.,]?\d* m|dentro de \d+[.,]?\d* s|hace \d+[.,]?\d* minuto|hace \d+[.,]?\d* semana|hace \d+[.,]?\d* horas|hace \d+[.,]?\d* meses|hace \d+[.,]?\d* anos|hace \d+[.,]?\d* dias|hace \d+[.,]?\d* hora|en \d+[.,]?\d* meses|hace \d+[.,]?\d* ano|hace \d+[.,]?\d* dia|hace \d+[.,]?\d* mes|hace \d+[.,]?\d* min|hace \d+[.,]?\d* sem|en \d+[.,]?\d* dias|en \d+[.,]?\d* dia|en \d+[.,]?\d* mes|en \d+[.,]?\d* min|en \d+[.,]?\d* sem|hace \d+[.,]?\d* a|hace \d+[.,]?\d* h|hace \d+[.,]?\d* m|hace \d+[.,]?\d* s|en \d+[.,]?\d* a|en \d+[.,]?\d* h|en \d+[.,]?\d* m|en \d+[.,]?\d* n|en \d+[.,]?\d* s)$";
  lit "(?i)ca di (\d+[.,]?\d*) agns";
  lit "(?i)ca di (\d+[.,]?\d*) an";
  lit "(?i)ca di (\d+[.,]?\d*) mes";
  lit "(?i)ca di (\d+[.,]?\d*) minut";
  lit "(?i)ca di (\d+[.,]?\d*) minuts";
  lit "(?i)ca di (\d+[.,]?\d*) ore";
  lit "(?i)ca di (\d+[.,]?\d*) oris";
  lit "(?i)ca di (\d+[.,]?\d*) secont";
  lit "(?i)ca di (\d+[.,]?\d*) seconts";
  lit "(?i)ca di (\d+[.,]?\d*) setemane";
  lit "(?i)ca di (\d+[.,]?\d*) setemanis";
  lit "(?i)ca di (\d+[.,]?\d*) zornade";
  lit "(?i)ca di (\d+[.,]?\d*) zornadis";
  lit "(?i)dentro de (\d+[.,]?\d*) seg";
  lit "(?i)duela (\d+[.,]?\d*) aste";
  lit "(?i)duela (\d+[.,]?\d*) egun";
  lit "(?i)duela (\d+[.,]?\d*) hilabete";
  lit "(?i)duela (\d+[.,]?\d*) minutu";
  lit "(?i)duela (\d+[.,]?\d*) ordu";
  lit "(?i)duela (\d+[.,]?\d*) segundo";
  lit "(?i)duela (\d+[.,]?\d*) urte";
  lit "(?i)en (\d+[.,]?\d*) a";
  lit "(?i)en (\d+[.,]?\d*) dia";
  lit "(?i)en (\d+[.,]?\d*) dias";
  lit "(?i)en (\d+[.,]?\d*) h";
  lit "(?i)en (\d+[.,]?\d*) m";
  lit "(?i)en (\d+[.,]?\d*) mes";
  lit "(?i)en (\d+[.,]?\d*) meses";
  lit "(?i)en (\d+[.,]?\d*) min";
  lit "(?i)en (\d+[.,]?\d*) n";
  lit "(?i)en (\d+[.,]?\d*) s";
  lit "(?i)en (\d+[.,]?\d*) sem";
  lit "(?i)hace (\d+[.,]?\d*) seg";
  lit "(?i)oer (\d+[.,]?\d*) dei";
  lit "(?i)oer (\d+[.,]?\d*) deien";
  lit "(?i)oer (\d+[.,]?\d*) jier";
  lit "(?i)oer (\d+[.,]?\d*) minut";
  lit "(?i)oer (\d+[.,]?\d*) minuten";
  lit "(?i)oer (\d+[.,]?\d*) moanne";
  lit "(?i)oer (\d+[.,]?\d*) moannen";
  lit "(?i)oer (\d+[.,]?\d*) oere";
  lit "(?i)oer (\d+[.,]?\d*) sekonde";
  lit "(?i)oer (\d+[.,]?\d*) sekonden";
  lit "(?i)oer (\d+[.,]?\d*) wike";
  lit "(?i)oer (\d+[.,]?\d*) wiken";
  lit "(?i)sa (\d+[.,]?\d*) araw";
  lit "(?i)sa (\d+[.,]?\d*) buwan";
  lit "(?i)sa (\d+[.,]?\d*) linggo";
  lit "(?i)sa (\d+[.,]?\d*) min";
  lit "(?i)sa (\d+[.,]?\d*) minuto";
  lit "(?i)sa (\d+[.,]?\d*) oras";
  lit "(?i)sa (\d+[.,]?\d*) seg";
  lit "(?i)sa (\d+[.,]?\d*) segundo";
  lit "(?i)sa (\d+[.,]?\d*) taon";
  lit "(?i)um (\d+[.,]?\d*) ar";
  lit "(?i)um (\d+[.,]?\d*) d";
  lit "(?i)um (\d+[.,]?\d*) da";
  lit "(?i)um (\d+[.,]?\d*) dag";
  lit "(?i)um (\d+[.,]?\d*) dagar";
  lit "(?i)um (\d+[.,]?\d*) m";
  lit "(?i)um (\d+[.,]?\d*) manað";
  lit "(?i)um (\d+[.,]?\d*) manaðir";
  lit "(?i)um (\d+[.,]?\d*) min";
  lit "(?i)um (\d+[.,]?\d*) minutt";
  lit "(?i)um (\d+[.,]?\d*) minuttir";
  lit "(?i)um (\d+[.,]?\d*) mnð";
  lit "(?i)um (\d+[.,]?\d*) s";
  lit "(?i)um (\d+[.,]?\d*) sek";
  lit "(?i)um (\d+[.,]?\d*) sekund";
  lit "(?i)um (\d+[.,]?\d*) t";
  lit "(?i)um (\d+[.,]?\d*) tima";
  lit "(?i)um (\d+[.,]?\d*) timar";
  lit "(?i)um (\d+[.,]?\d*) v";
  lit "(?i)um (\d+[.,]?\d*) vi";
  lit "(?i)um (\d+[.,]?\d*) viku";
  lit "(?i)um (\d+[.,]?\d*) vikur"] = true.
Proof. vm_compute. reflexivity. Qed.

Definition table_04 : list (str * locale) :=
  [(lit "es", loc_es);
   (lit "es-419", loc_es_419);
   (lit "es-AR", loc_es_AR);
   (lit "es-BO", loc_es_BO);
   (lit "es-BR", loc_es_BR);
   (lit "es-BZ", loc_es_BZ);
   (lit "es-CL", loc_es_CL);
   (lit "es-CO", loc_es_CO);
   (lit "es-CR", loc_es_CR);
   (lit "es-CU", loc_es_CU);
   (lit "es-DO", loc_es_DO);
   (lit "es-EA", loc_es_EA);
   (lit "es-EC", loc_es_EC);
   (lit "es-GQ", loc_es_GQ);
   (lit "es-GT", loc_es_GT);
   (lit "es-HN", loc_es_HN);
   (lit "es-IC", loc_es_IC);
   (lit "es-MX", loc_es_MX);
   (lit "es-NI", loc_es_NI);
   (lit "es-PA", loc_es_PA);
   (lit "es-PE", loc_es_PE);
   (lit "es-PH", loc_es_PH);
   (lit "es-PR", loc_es_PR);
   (lit "es-PY", loc_es_PY);
   (lit "es-SV", loc_es_SV);
   (lit "es-US", loc_es_US);
   (lit "es-UY", loc_es_UY);
   (lit "es-VE", loc_es_VE);
   (lit "et", loc_et);
   (lit "eu", loc_eu);
   (lit "ewo", loc_ewo);
   (lit "fa", loc_fa);
   (lit "fa-AF", loc_fa_AF);
   (lit "ff", loc_ff);
   (lit "ff-CM", loc_ff_CM);
   (lit "ff-GN", loc_ff_GN);
   (lit "ff-MR", loc_ff_MR);
   (lit "fi", loc_fi);
   (lit "fil", loc_fil);
   (lit "fo", loc_fo);
   (lit "fo-DK", loc_fo_DK);
   (lit "fr", loc_fr);
   (lit "fr-BE", loc_fr_BE);
   (lit "fr-BF", loc_fr_BF);
   (lit "fr-BI", loc_fr_BI);
   (lit "fr-BJ", loc_fr_BJ);
   (lit "fr-BL", loc_fr_BL);
   (lit "fr-CA", loc_fr_CA);
   (lit "fr-CD", loc_fr_CD);
   (lit "fr-CF", loc_fr_CF);
   (lit "fr-CG", loc_fr_CG);
   (lit "fr-CH", loc_fr_CH);
   (lit "fr-CI", loc_fr_CI);
   (lit "fr-CM", loc_fr_CM);
   (lit "fr-DJ", loc_fr_DJ);
   (lit "fr-DZ", loc_fr_DZ);
   (lit "fr-GA", loc_fr_GA);
   (lit "fr-GF", loc_fr_GF);
   (lit "fr-GN", loc_fr_GN);
   (lit "fr-GP", loc_fr_GP);
   (lit "fr-GQ", loc_fr_GQ);
   (lit "fr-HT", loc_fr_HT);
   (lit "fr-KM", loc_fr_KM);
   (lit "fr-LU", loc_fr_LU);
   (lit "fr-MA", loc_fr_MA);
   (lit "fr-MC", loc_fr_MC);
   (lit "fr-MF", loc_fr_MF);
   (lit "fr-MG", loc_fr_MG);
   (lit "fr-ML", loc_fr_ML);
   (lit "fr-MQ", loc_fr_MQ);
   (lit "fr-MR", loc_fr_MR);
   (lit "fr-MU", loc_fr_MU);
   (lit "fr-NC", loc_fr_NC);
   (lit "fr-NE", loc_fr_NE);
   (lit "fr-PF", loc_fr_PF);
   (lit "fr-PM", loc_fr_PM);
   (lit "fr-RE", loc_fr_RE);
   (lit "fr-RW", loc_fr_RW);
   (lit "fr-SC", loc_fr_SC);
   (lit "fr-SN", loc_fr_SN);
   (lit "fr-SY", loc_fr_SY);
   (lit "fr-TD", loc_fr_TD);
   (lit "fr-TG", loc_fr_TG);
   (lit "fr-TN", loc_fr_TN);
   (lit "fr-VU", loc_fr_VU);
   (lit "fr-WF", loc_fr_WF);
   (lit "fr-YT", loc_fr_YT);
   (lit "fur", loc_fur);
   (lit "fy", loc_fy)].

(** each region with its language *)
Definition regions_04 : list (str * str) :=
  [(lit "es-419", lit "es");
   (lit "es-AR", lit "es");
   (lit "es-BO", lit "es");
   (lit "es-BR", lit "es");
   (lit "es-BZ", lit "es");
   (lit "es-CL", lit "es");
   (lit "es-CO", lit "es");
   (lit "es-CR", lit "es");
   (lit "es-CU", lit "es");
   (lit "es-DO", lit "es");
   (lit "es-EA", lit "es");
   (lit "es-EC", lit "es");
   (lit "es-GQ", lit "es");
   (lit "es-GT", lit "es");
   (lit "es-HN", lit "es");
   (lit "es-IC", lit "es");
   (lit "es-MX", lit "es");
   (lit "es-NI", lit "es");
   (lit "es-PA", lit "es");
   (lit "es-PE", lit "es");
   (lit "es-PH", lit "es");
   (lit "es-PR", lit "es");
   (lit "es-PY", lit "es");
   (lit "es-SV", lit "es");
   (lit "es-US", lit "es");
   (lit "es-UY", lit "es");
   (lit "es-VE", lit "es");
   (lit "fa-AF", lit "fa");
   (lit "ff-CM", lit "ff");
   (lit "ff-GN", lit "ff");
   (lit "ff-MR", lit "ff");
   (lit "fo-DK", lit "fo");
   (lit "fr-BE", lit "fr");
   (lit "fr-BF", lit "fr");
   (lit "fr-BI", lit "fr");
   (lit "fr-BJ", lit "fr");
   (lit "fr-BL", lit "fr");
   (lit "fr-CA", lit "fr");
   (lit "fr-CD", lit "fr");
   (lit "fr-CF", lit "fr");
   (lit "fr-CG", lit "fr");
   (lit "fr-CH", lit "fr");
   (lit "fr-CI", lit "fr");
   (lit "fr-CM", lit "fr");
   (lit "fr-DJ", lit "fr");
   (lit "fr-DZ", lit "fr");
   (lit "fr-GA", lit "fr");
   (lit "fr-GF", lit "fr");
   (lit "fr-GN", lit "fr");
   (lit "fr-GP", lit "fr");
   (lit "fr-GQ", lit "fr");
   (lit "fr-HT", lit "fr");
   (lit "fr-KM", lit "fr");
   (lit "fr-LU", lit "fr");
   (lit "fr-MA", lit "fr");
   (lit "fr-MC", lit "fr");
   (lit "fr-MF", lit "fr");
   (lit "fr-MG", lit "fr");
   (lit "fr-ML", lit "fr");
   (lit "fr-MQ", lit "fr");
   (lit "fr-MR", lit "fr");
   (lit "fr-MU", lit "fr");
   (lit "fr-NC", lit "fr");
   (lit "fr-NE", lit "fr");
   (lit "fr-PF", lit "fr");
   (lit "fr-PM", lit "fr");
   (lit "fr-RE", lit "fr");
   (lit "fr-RW", lit "fr");
   (lit "fr-SC", lit "fr");
   (lit "fr-SN", lit "fr");
   (lit "fr-SY", lit "fr");
   (lit "fr-TD", lit "fr");
   (lit "fr-TG", lit "fr");
   (lit "fr-TN", lit "fr");
   (lit "fr-VU", lit "fr");
   (lit "fr-WF", lit "fr");
   (lit "fr-YT", lit "fr")].
