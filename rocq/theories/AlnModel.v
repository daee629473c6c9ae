(** Model of WriteAligned (fpdf.go:2935-2972) on top of Write (WriteModel.v), SplitLines/SplitText and GetStringWidth (LineModel.v), with
    the places of the texts.  Lengths are exact rationals (every finite float64 is one; rounding is not modelled).  Automatic page
    breaks, links and the marks of a cell are not modelled here (C25, C31, C72). *)
From Coq Require Import QArith Qround Qabs String.
From Verif Require Import Base TextModel LineModel WriteModel.
Open Scope Z_scope.

(** what Write reads and changes: page width, margins, cell margin, font size, cursor, and whether there is a page *)
Record flow := { fl_w : Q; fl_lm : Q; fl_rm : Q; fl_cm : Q; fl_fs : Q; fl_x : Q; fl_y : Q; fl_page : bool }.
Definition at_xy (x y : Q) (g : flow) : flow :=
  {| fl_w := fl_w g; fl_lm := fl_lm g; fl_rm := fl_rm g; fl_cm := fl_cm g; fl_fs := fl_fs g; fl_x := x; fl_y := y; fl_page := fl_page g |}.
Definition Qltb (a b : Q) : bool := negb (Qle_bool b a).

(** fpdf.go:330-335 *)
Definition set_left (m : Q) (g : flow) : flow :=
  {| fl_w := fl_w g; fl_lm := m; fl_rm := fl_rm g; fl_cm := fl_cm g; fl_fs := fl_fs g;
     fl_x := if fl_page g && Qltb (fl_x g) m then m else fl_x g; fl_y := fl_y g; fl_page := fl_page g |}.
(** fpdf.go:488-490 *)
Definition set_right (m : Q) (g : flow) : flow :=
  {| fl_w := fl_w g; fl_lm := fl_lm g; fl_rm := m; fl_cm := fl_cm g; fl_fs := fl_fs g; fl_x := fl_x g; fl_y := fl_y g; fl_page := fl_page g |}.

(** a text drawn: where its first glyph begins (the left edge of the cell plus the cell margin, fpdf.go:2431), the top of its cell, and the text *)
Record chunk := { ch_x : Q; ch_y : Q; ch_text : list Z }.

Section Write.
  Variable utf8font : bool.
  Variable cw : list Z.
  Variable missing : Z.

  (** fpdf.go:2791-2792 and 2846-2848: wmax for a line that begins at [x], rounded down (see WriteModel.v) *)
  Definition room (g : flow) (x : Q) : Z := Qfloor ((fl_w g - fl_rm g - x - 2 * fl_cm g) * 1000 / fl_fs g).
  (** fpdf.go:947-953 [GetStringWidth]: sum of the glyph widths times the font size / 1000 *)
  Definition text_width (fs : Q) (txt : bytes) : outcome Q :=
    obind (string_symbol_width utf8font cw missing txt) (fun w => Ret (inject_Z w * fs / 1000)%Q).
  (** the calls of CellFormat made by Write, fpdf.go:2817-2889: a line with ln = 2 leaves x and advances y; x is then set to the left
      margin if it was the first one, and is there already otherwise *)
  Fixpoint place (h : Q) (evs : list wevent) (g : flow) : outcome (list chunk * flow) :=
    match evs with
    | [] => Ret ([], g)
    | WLine t :: evs =>
        obind (place h evs (at_xy (fl_lm g) (fl_y g + h) g)) (fun r =>
        Ret ({| ch_x := fl_x g + fl_cm g; ch_y := fl_y g; ch_text := t |} :: fst r, snd r))
    | WMove :: evs => place h evs (at_xy (fl_lm g) (fl_y g + h) g)
    | WLast t l :: evs =>
        obind (place h evs (at_xy (fl_x g + inject_Z l / 1000 * fl_fs g) (fl_y g) g)) (fun r =>
        Ret ({| ch_x := fl_x g + fl_cm g; ch_y := fl_y g; ch_text := t |} :: fst r, snd r))
    | WAdvance :: evs => obind (text_width (fl_fs g) [32]) (fun d => place h evs (at_xy (fl_x g + d) (fl_y g) g))
    end.
  (** fpdf.go:2788-2890 *)
  Definition write_flow (h : Q) (txt : bytes) (g : flow) : outcome (list chunk * flow) :=
    obind (write utf8font cw (Qltb (fl_lm g) (fl_x g)) (room g (fl_x g)) (room g (fl_lm g)) txt) (fun evs => place h evs g).

  (** fpdf.go:2957-2970: one line *)
  Definition aligned_line (width h lMargin rMargin pageWidth : Q) (align line : bytes) (g : flow) : outcome (list chunk * flow) :=
    obind (text_width (fl_fs g) line) (fun lineWidth =>
    if beqb align (bs "C") then
      obind (write_flow h line (set_left (lMargin + (width - lineWidth) / 2) g)) (fun r => Ret (fst r, set_left lMargin (snd r)))
    else if beqb align (bs "R") then
      obind (write_flow h line (set_left (lMargin + (width - lineWidth) - (201 # 100) * fl_cm g) g)) (fun r => Ret (fst r, set_left lMargin (snd r)))
    else
      obind (write_flow h line (set_right (pageWidth - lMargin - width) g)) (fun r => Ret (fst r, set_right rMargin (snd r)))).
  (** fpdf.go:2953-2971 *)
  Fixpoint aligned_lines (width h lMargin rMargin pageWidth : Q) (align : bytes) (lines : list bytes) (g : flow) : outcome (list chunk * flow) :=
    match lines with
    | [] => Ret ([], g)
    | line :: lines =>
        obind (aligned_line width h lMargin rMargin pageWidth align line g) (fun r =>
        obind (aligned_lines width h lMargin rMargin pageWidth align lines (snd r)) (fun r2 => Ret ((fst r ++ fst r2)%list, snd r2)))
    end.
  (** fpdf.go:2935-2972; GetMargins 307-313, GetPageSize 298-302; wmax of SplitLines fpdf.go:2535 and of SplitText splittext.go:16 *)
  Definition write_aligned (width h : Q) (txt align : bytes) (g : flow) : outcome (list chunk * flow) :=
    let width := if Qeq_bool width 0 then (fl_w g - (fl_lm g + fl_rm g))%Q else width in
    let wmax := Qceiling ((width - 2 * fl_cm g) * 1000 / fl_fs g) in
    obind (if utf8font then split_text cw wmax txt else split_lines cw wmax txt) (fun lines =>
    aligned_lines width h (fl_lm g) (fl_rm g) (fl_w g) align lines g).
End Write.
