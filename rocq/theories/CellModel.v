(** Model of what one cell draws: CellFormat after its page break, together
    with the underline and strike-out rectangles, Text and SetWordSpacing.
    Code: /repo/fpdf.go at the lines cited.

    Simplifications: the numbers are real numbers (Go: float64, printed with
    two decimals); the document has no error and a font is selected, so the
    two early returns of CellFormat (fpdf.go:2315-2322) are not taken; the cell
    fits on the page (fpdf.go:2326-2344, modelled in ApiModel.v, does nothing);
    the page content is a list of marks, one for each operator group. *)
From Coq Require Import Reals Lra R_Ifp.
From Verif Require Import Base TextModel LineModel.
From Coq Require Import String.
Open Scope Z_scope.

(** the fields of Fpdf and fontDefType that a cell reads (def.go:539-632,
    def.go:689-714): position, page size, scale, right and cell margin, font
    size in user units and in points, word spacing of MultiCell, underline
    thickness factor; underline position and thickness, ascent and descent of
    the font; underlined, struck out, colour flag, UTF-8 font, right to left;
    width table and missing width. *)
Record cenv := {
  c_x : R; c_y : R; c_pw : R; c_ph : R; c_k : R; c_rm : R; c_lm : R; c_cm : R;
  c_fs : R; c_pt : R; c_ws : R; c_thick : R;
  c_up : Z; c_ut : Z; c_asc : Z; c_desc : Z;
  c_ul : bool; c_so : bool; c_flag : bool; c_utf8 : bool; c_rtl : bool;
  c_cw : list Z; c_missing : Z }.

(** how a rectangle is painted (fpdf.go:2352-2366) *)
Inductive paint := PStroke | PFill | PBoth.

(** an element of a TJ array: a literal string or a number *)
Inductive tj := JStr (lit : bytes) | JNum (n : R).

(** the operator groups a cell writes: "x y w h re op", "x y m x y l S",
    "q colour" with the text colour, "Q", "BT x y Td (..) Tj ET",
    "BT 0 Tw x y Td [..] TJ ET", "n Tw" *)
Inductive mark :=
| MRect (x y w h : R) (p : paint)
| MLine (x1 y1 x2 y2 : R)
| MColour
| MRestore
| MShow (x y : R) (lit : bytes)
| MShowJ (x y : R) (items : list tj)
| MWordSpace (n : R).

Section Cell.
  Variable e : cenv.

  Local Open Scope R_scope.

  (** GetStringSymbolWidth and GetStringWidth, fpdf.go:947-985 *)
  Definition sym_width (txt : bytes) : outcome Z := string_symbol_width (c_utf8 e) (c_cw e) (c_missing e) txt.
  Definition str_width (txt : bytes) : outcome R :=
    obind (sym_width txt) (fun n => Ret (IZR n * c_fs e / 1000)).

  (** strings.ToUpper on the border letters (fpdf.go:2324); only ASCII letters
      matter: no other character has L, T, R, B or 1 as its upper case form *)
  Definition up1 (c : Z) : Z := if ((97 <=? c) && (c <=? 122))%Z then (c - 32)%Z else c.
  Definition upper (b : bytes) : bytes := List.map up1 b.
  (** strings.Contains of a one letter string *)
  Definition has (c : Z) (b : bytes) : bool := List.existsb (Z.eqb c) b.

  (** fpdf.go:2345-2347 *)
  Definition cell_w (w : R) : R := if Req_EM_T w 0 then c_pw e - c_rm e - c_x e else w.

  (** fpdf.go:2348-2390: background and border; [border] is in upper case *)
  Definition cell_frame (w h : R) (border : bytes) (fill : bool) : list mark :=
    let k := c_k e in
    let one := beqb border (bs "1") in
    ((if fill || one then
        [MRect (c_x e * k) ((c_ph e - c_y e) * k) (w * k) (- h * k)
               (if fill then (if one then PBoth else PFill) else PStroke)]
      else []) ++
     (if negb (beqb border []) && negb one then
        let left := c_x e * k in
        let top := (c_ph e - c_y e) * k in
        let right := (c_x e + w) * k in
        let bottom := (c_ph e - (c_y e + h)) * k in
        (if has 76 border then [MLine left top left bottom] else []) ++
        (if has 84 border then [MLine left top right top] else []) ++
        (if has 82 border then [MLine right top right bottom] else []) ++
        (if has 66 border then [MLine left bottom right bottom] else [])
      else []))%list.

  (** fpdf.go:2393-2401: horizontal alignment *)
  Definition cell_dx (w : R) (txt align : bytes) : outcome R :=
    if has 82 align then obind (str_width txt) (fun sw => Ret (w - c_cm e - sw))
    else if has 67 align then obind (str_width txt) (fun sw => Ret ((w - sw) / 2))
    else Ret (c_cm e).

  (** fpdf.go:2403-2421: vertical alignment *)
  Definition cell_descent : R :=
    if (c_desc e =? 0)%Z then - (19 / 100) * c_fs e
    else IZR (c_desc e) * c_fs e / IZR (c_asc e - c_desc e).
  Definition cell_dy (h : R) (align : bytes) : R :=
    if has 84 align then (c_fs e - h) / 2
    else if has 66 align then (h - c_fs e) / 2
    else if has 65 align then (h - c_fs e) / 2 - cell_descent
    else 0.

  (** fpdf.go:3619-3633: [dounderline] and [dostrikeout] *)
  Definition deco_width (txt : bytes) : outcome R :=
    obind (str_width txt) (fun sw => Ret (sw + c_ws e * IZR (blank_count txt))).
  Definition do_underline (x y : R) (txt : bytes) : outcome mark :=
    obind (deco_width txt) (fun w =>
    Ret (MRect (x * c_k e) ((c_ph e - (y - IZR (c_up e) / 1000 * c_fs e)) * c_k e) (w * c_k e)
               (- (IZR (c_ut e) * c_thick e) / 1000 * c_pt e) PFill)).
  Definition do_strikeout (x y : R) (txt : bytes) : outcome mark :=
    obind (deco_width txt) (fun w =>
    Ret (MRect (x * c_k e) ((c_ph e - (y + 4 * IZR (c_up e) / 1000 * c_fs e)) * c_k e) (w * c_k e)
               (- IZR (c_ut e) / 1000 * c_pt e) PFill)).

  (** strings.Split(txtStr, " ") of fpdf.go:2438 *)
  Fixpoint split_blank (s : bytes) : list bytes :=
    match s with
    | [] => [[]]
    | c :: t => if (c =? 32)%Z then [] :: split_blank t
                else match split_blank t with
                     | w :: ws => (c :: w) :: ws
                     | [] => [[c]]
                     end
    end.

  (** math.Ceil followed by int: the least integer not below r *)
  Definition ceil (r : R) : Z := (- (up (- r) - 1))%Z.

  (** the loop of fpdf.go:2441-2448 *)
  Fixpoint tj_items (shift : R) (ts : list bytes) : outcome (list tj) :=
    match ts with
    | [] => Ret []
    | t :: ts' =>
        obind (cell_operand true (fun s => utf8toutf16 s false) t) (fun l =>
        match ts' with
        | [] => Ret [JStr l]
        | _ => obind (cell_operand true (fun s => utf8toutf16 s false) [32%Z]) (fun sp =>
               obind (tj_items shift ts') (fun r => Ret (JStr l :: JNum (- shift) :: JStr sp :: r)))
        end)
    end.

  (** reverseText applied when the document is right to left (fpdf.go:2427-2429,
      fpdf.go:2452-2454); only UTF-8 fonts reach it *)
  Definition oriented (txt : bytes) : bytes := if c_utf8 e && c_rtl e then reverse_text txt else txt.

  (** fpdf.go:2425-2467: the operators that show the text, already oriented.
      Division by [len(t)-1 = 0] gives an infinity that is not used. *)
  Definition cell_show (w h dx dy : R) (txt align : bytes) : outcome mark :=
    if (if Req_EM_T (c_ws e) 0 then beqb align (bs "J") else true) && c_utf8 e then
      let wmax := ceil ((w - 2 * c_cm e) * 1000 / c_fs e) in
      obind (sym_width txt) (fun size =>
      let t := split_blank txt in
      let shift := IZR (wmax - size) / IZR (Z.of_nat (List.length t) - 1) in
      obind (tj_items shift t) (fun items =>
      Ret (MShowJ ((c_x e + dx) * c_k e)
                  ((c_ph e - (c_y e + 5 / 10 * h + 3 / 10 * c_fs e)) * c_k e) items)))
    else
      obind (cell_operand (c_utf8 e) (fun s => utf8toutf16 s false) txt) (fun l =>
      Ret (MShow ((c_x e + dx) * c_k e)
                 ((c_ph e - (c_y e + dy + 5 / 10 * h + 3 / 10 * c_fs e)) * c_k e) l)).

  (** the effect of a cell: operators, link rectangle, characters recorded as
      used, new position and last height *)
  Record drawn := { d_marks : list mark; d_link : option (R * R * R * R); d_used : list Z;
                    d_x : R; d_y : R; d_lasth : R }.

  Definition opt_mark (b : bool) (m : outcome mark) : outcome (list mark) :=
    if b then obind m (fun x => Ret [x]) else Ret [].

  (** the characters entered into usedRunes (fpdf.go:2431-2433, 2456-2458) *)
  Definition used_of (txt : bytes) : list Z := if c_utf8 e then go_runes txt else [].

  (** fpdf.go:2391-2476 for a non-empty text *)
  Definition cell_text (w h : R) (txt align : bytes) (link : Z) (url : bytes)
    : outcome (list mark * option (R * R * R * R) * list Z) :=
    obind (cell_dx w txt align) (fun dx =>
    let dy := cell_dy h align in
    let txt := oriented txt in
    let base := c_y e + dy + 5 / 10 * h + 3 / 10 * c_fs e in
    obind (cell_show w h dx dy txt align) (fun show =>
    obind (opt_mark (c_ul e) (do_underline (c_x e + dx) base txt)) (fun under =>
    obind (opt_mark (c_so e) (do_strikeout (c_x e + dx) base txt)) (fun strike =>
    obind (if (0 <? link)%Z || negb (beqb url []) then
             obind (str_width txt) (fun sw =>
             Ret (Some (c_x e + dx, c_y e + dy + 5 / 10 * h - 5 / 10 * c_fs e, sw, c_fs e)))
           else Ret None) (fun l =>
    Ret (((if c_flag e then [MColour] else []) ++ [show] ++ under ++ strike ++
          (if c_flag e then [MRestore] else []))%list, l, used_of txt)))))).

  (** [CellFormat], fpdf.go:2312-2497 *)
  Definition cell_format (w h : R) (txt border : bytes) (ln : Z) (align : bytes) (fill : bool) (link : Z) (url : bytes)
    : outcome drawn :=
    let border := upper border in
    let w := cell_w w in
    let frame := cell_frame w h border fill in
    obind (match txt with
           | [] => Ret ([], None, [])
           | _ => cell_text w h txt align link url
           end) (fun '(text, l, used) =>
    Ret {| d_marks := (frame ++ text)%list; d_link := l; d_used := used;
           d_x := (if (0 <? ln)%Z then (if (ln =? 1)%Z then c_lm e else c_x e) else c_x e + w);
           d_y := (if (0 <? ln)%Z then c_y e + h else c_y e);
           d_lasth := h |}).

  (** [Text], fpdf.go:2208-2233 *)
  Definition text_at (x y : R) (txt : bytes) : outcome (list mark * list Z) :=
    let txt := oriented txt in
    obind (if c_utf8 e && c_rtl e then obind (str_width txt) (fun sw => Ret (x - sw)) else Ret x) (fun x =>
    obind (if c_utf8 e then cell_operand true (fun s => utf8toutf16 s false) txt else Ret (textstring txt)) (fun l =>
    let some := negb (beqb txt []) in
    obind (opt_mark (c_ul e && some) (do_underline x y txt)) (fun under =>
    obind (opt_mark (c_so e && some) (do_strikeout x y txt)) (fun strike =>
    Ret (((if c_flag e then [MColour] else []) ++ [MShow (x * c_k e) ((c_ph e - y) * c_k e) l] ++ under ++ strike ++
          (if c_flag e then [MRestore] else []))%list, used_of txt))))).

  (** [SetWordSpacing], fpdf.go:2237-2239: writes Tw and changes no field *)
  Definition set_word_spacing (space : R) : list mark := [MWordSpace (space * c_k e)].
End Cell.
