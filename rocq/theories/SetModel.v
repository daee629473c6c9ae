(** Model of the settings of a document: texts of the information dictionary, display mode, dates, script and metadata, and the
    package-level defaults.  fpdf.go *)
From Coq Require Import String.
From Verif Require Import Base TextModel.
Open Scope Z_scope.

(** the six texts of the information dictionary *)
Inductive field := Producer | Title | Subject | Author | Keywords | Creator.
Definition field_eqb (a b : field) : bool :=
  match a, b with
  | Producer, Producer | Title, Title | Subject, Subject | Author, Author | Keywords, Keywords | Creator, Creator => true
  | _, _ => false
  end.
Lemma field_eqb_eq a b : field_eqb a b = true <-> a = b.
Proof. destruct a, b; cbn; split; congruence. Qed.

(** a time.Time: the zero time, or the calendar date and clock shown in its location (Go's time package is not modelled; [Format]
    with the layout 20060102150405 uses these six numbers only) *)
Record date := { dt_year : Z; dt_month : Z; dt_day : Z; dt_hour : Z; dt_min : Z; dt_sec : Z }.
Definition gotime := option date.

(** fpdf.go:45-50 [gl] *)
Record defaults := { g_sort : bool; g_nocompress : bool; g_created : gotime; g_modified : gotime }.
(** the zero value of [gl] *)
Definition no_defaults : defaults := {| g_sort := false; g_nocompress := false; g_created := None; g_modified := None |}.

(** the fields of the document that the calls below assign; [s_err] is f.err (only whether it is set) *)
Record sets := { s_text : field -> bytes; s_zoom : bytes; s_layout : bytes; s_created : gotime; s_modified : gotime;
                 s_compress : bool; s_sort : bool; s_js : option bytes; s_xmp : bytes; s_err : bool }.

Definition with_text (f : field) (b : bytes) (s : sets) : sets :=
  {| s_text := fun g => if field_eqb g f then b else s_text s g; s_zoom := s_zoom s; s_layout := s_layout s; s_created := s_created s;
     s_modified := s_modified s; s_compress := s_compress s; s_sort := s_sort s; s_js := s_js s; s_xmp := s_xmp s; s_err := s_err s |}.
Definition with_zoom (b : bytes) (s : sets) : sets :=
  {| s_text := s_text s; s_zoom := b; s_layout := s_layout s; s_created := s_created s;
     s_modified := s_modified s; s_compress := s_compress s; s_sort := s_sort s; s_js := s_js s; s_xmp := s_xmp s; s_err := s_err s |}.
Definition with_layout (b : bytes) (s : sets) : sets :=
  {| s_text := s_text s; s_zoom := s_zoom s; s_layout := b; s_created := s_created s;
     s_modified := s_modified s; s_compress := s_compress s; s_sort := s_sort s; s_js := s_js s; s_xmp := s_xmp s; s_err := s_err s |}.
Definition with_created (t : gotime) (s : sets) : sets :=
  {| s_text := s_text s; s_zoom := s_zoom s; s_layout := s_layout s; s_created := t;
     s_modified := s_modified s; s_compress := s_compress s; s_sort := s_sort s; s_js := s_js s; s_xmp := s_xmp s; s_err := s_err s |}.
Definition with_modified (t : gotime) (s : sets) : sets :=
  {| s_text := s_text s; s_zoom := s_zoom s; s_layout := s_layout s; s_created := s_created s;
     s_modified := t; s_compress := s_compress s; s_sort := s_sort s; s_js := s_js s; s_xmp := s_xmp s; s_err := s_err s |}.
Definition with_compress (b : bool) (s : sets) : sets :=
  {| s_text := s_text s; s_zoom := s_zoom s; s_layout := s_layout s; s_created := s_created s;
     s_modified := s_modified s; s_compress := b; s_sort := s_sort s; s_js := s_js s; s_xmp := s_xmp s; s_err := s_err s |}.
Definition with_sort (b : bool) (s : sets) : sets :=
  {| s_text := s_text s; s_zoom := s_zoom s; s_layout := s_layout s; s_created := s_created s;
     s_modified := s_modified s; s_compress := s_compress s; s_sort := b; s_js := s_js s; s_xmp := s_xmp s; s_err := s_err s |}.
Definition with_js (b : option bytes) (s : sets) : sets :=
  {| s_text := s_text s; s_zoom := s_zoom s; s_layout := s_layout s; s_created := s_created s;
     s_modified := s_modified s; s_compress := s_compress s; s_sort := s_sort s; s_js := b; s_xmp := s_xmp s; s_err := s_err s |}.
Definition with_xmp (b : bytes) (s : sets) : sets :=
  {| s_text := s_text s; s_zoom := s_zoom s; s_layout := s_layout s; s_created := s_created s;
     s_modified := s_modified s; s_compress := s_compress s; s_sort := s_sort s; s_js := s_js s; s_xmp := b; s_err := s_err s |}.
Definition with_err (b : bool) (s : sets) : sets :=
  {| s_text := s_text s; s_zoom := s_zoom s; s_layout := s_layout s; s_created := s_created s;
     s_modified := s_modified s; s_compress := s_compress s; s_sort := s_sort s; s_js := s_js s; s_xmp := s_xmp s; s_err := b |}.

(** the calls.  [SetText] stands for SetProducer, SetTitle, SetSubject, SetAuthor, SetKeywords and SetCreator *)
Inductive call :=
| SetText (f : field) (s : bytes) (isUTF8 : bool)
| SetDisplayMode (zoom layout : bytes)
| SetCompression (b : bool) | SetCatalogSort (b : bool)
| SetCreationDate (t : gotime) | SetModificationDate (t : gotime)
| SetJavascript (s : bytes) | SetXmpMetadata (b : bytes)
| SetError | ClearError
| SetDefaultCompression (b : bool) | SetDefaultCatalogSort (b : bool)
| SetDefaultCreationDate (t : gotime) | SetDefaultModificationDate (t : gotime).

(** fpdf.go:571-576, 580-585, 589-594, 598-603, 608-613, 617-622: the six bodies are the same up to the field *)
Definition set_text (f : field) (str : bytes) (isUTF8 : bool) (s : sets) : outcome sets :=
  if isUTF8 then obind (utf8toutf16 str true) (fun t => Ret (with_text f t s)) else Ret (with_text f str s).

Definition zooms : list bytes := [bs "fullpage"; bs "fullwidth"; bs "real"; bs "default"].
Definition layout_modes : list bytes :=
  [bs "single"; bs "continuous"; bs "two"; bs "default"; bs "SinglePage"; bs "OneColumn";
   bs "TwoColumnLeft"; bs "TwoColumnRight"; bs "TwoPageLeft"; bs "TwoPageRight"].
Definition among (l : list bytes) (b : bytes) : bool := existsb (beqb b) l.
(** fpdf.go:530-552 *)
Definition set_display (zoom layout : bytes) (s : sets) : sets :=
  if s_err s then s
  else
    let layout := match layout with [] => bs "default" | _ => layout end in
    if among zooms zoom then
      let s := with_zoom zoom s in
      if among layout_modes layout then with_layout layout s else with_err true s
    else with_err true s.

(** fpdf.go:565-567 (SetCompression), 3808-3810, 3830-3832, 3836-3838, 3841-3843, 625-627; SetError and ClearError: 284-288, 260-262.
    The calls of the last group do not touch the document *)
Definition step (c : call) (s : sets) : outcome sets :=
  match c with
  | SetText f str u => set_text f str u s
  | SetDisplayMode z l => Ret (set_display z l s)
  | SetCompression b => Ret (with_compress b s)
  | SetCatalogSort b => Ret (with_sort b s)
  | SetCreationDate t => Ret (with_created t s)
  | SetModificationDate t => Ret (with_modified t s)
  | SetJavascript b => Ret (with_js (Some b) s)
  | SetXmpMetadata b => Ret (with_xmp b s)
  | SetError => Ret (with_err true s)
  | ClearError => Ret (with_err false s)
  | _ => Ret s
  end.
(** fpdf.go:557-559, 3801-3803, 3815-3817, 3822-3824: the effect of the calls on the package-level defaults *)
Definition step_defaults (g : defaults) (c : call) : defaults :=
  match c with
  | SetDefaultCompression b => {| g_sort := g_sort g; g_nocompress := negb b; g_created := g_created g; g_modified := g_modified g |}
  | SetDefaultCatalogSort b => {| g_sort := b; g_nocompress := g_nocompress g; g_created := g_created g; g_modified := g_modified g |}
  | SetDefaultCreationDate t => {| g_sort := g_sort g; g_nocompress := g_nocompress g; g_created := t; g_modified := g_modified g |}
  | SetDefaultModificationDate t => {| g_sort := g_sort g; g_nocompress := g_nocompress g; g_created := g_created g; g_modified := t |}
  | _ => g
  end.
(** a sequence of calls on one document *)
Fixpoint run (h : list call) (s : sets) : outcome sets :=
  match h with [] => Ret s | c :: h => obind (step c s) (run h) end.
(** the defaults after a sequence of calls on any documents *)
Definition defaults_after (h : list call) : defaults := fold_left step_defaults h no_defaults.

(** fpdf.go:60-212, the parts of fpdfNew that concern these fields (188-189, 194, 205, 207-209); def.go:31 cnFpdfVersion.
    The orientation, unit and size are taken to be valid: otherwise fpdfNew returns early with an error *)
Definition new (g : defaults) : outcome sets :=
  let s := {| s_text := fun _ => []; s_zoom := []; s_layout := []; s_created := None; s_modified := None;
              s_compress := false; s_sort := false; s_js := None; s_xmp := []; s_err := false |} in
  let s := set_display (bs "default") (bs "default") s in
  let s := with_compress (negb (g_nocompress g)) s in
  obind (set_text Producer (bs "FPDF 1.7") true s) (fun s =>
  Ret (with_modified (g_modified g) (with_created (g_created g) (with_sort (g_sort g) s)))).

(** fpdf.go:4618-4623 *)
Definition time_or_now (now : date) (t : gotime) : date := match t with None => now | Some t => t end.
(** time.Format with 2006 resp. 01, 02, 15, 04, 05: Go's appendInt, at least [w] digits, minus sign in front (library, not in /repo) *)
Definition padded (w : nat) (n : Z) : bytes :=
  let d := dec (Z.abs n) in
  ((if n <? 0 then bs "-" else []) ++ repeat 48 (w - List.length d) ++ d)%list.
(** fpdf.go:4644-4647: the strings written for CreationDate and ModDate *)
Definition date_string (t : date) : bytes :=
  (bs "D:" ++ padded 4 (dt_year t) ++ padded 2 (dt_month t) ++ padded 2 (dt_day t) ++ padded 2 (dt_hour t) ++ padded 2 (dt_min t) ++ padded 2 (dt_sec t))%list.
