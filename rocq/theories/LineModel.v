(** Model of the text splitters SplitLines, SplitText and MultiCell.
    Widths are the integer glyph widths (1/1000 em) of the font's table [cw];
    [wmax] is the integer computed by the code as
    int(math.Ceil((w - 2*f.cMargin) * 1000 / f.fontSize)) (fpdf.go:2535,
    splittext.go:15, fpdf.go:2610): the theorems quantify over every integer,
    so nothing is assumed about the float computation that yields it. *)
From Verif Require Import Base TextModel.
From Coq Require Import String.
Open Scope Z_scope.

(** Trailing newlines: "for nb > 0 && s[nb-1] == '\n' { nb-- }; s = s[0:nb]"
    (fpdf.go:2538-2541, splittext.go:18-21, fpdf.go:2616-2620). *)
Fixpoint drop_nl (r : list Z) : list Z :=
  match r with
  | c :: t => if c =? 10 then drop_nl t else r
  | [] => []
  end.
Definition trim_nl (s : list Z) : list Z := rev (drop_nl (rev s)).

(** The loop shared, statement by statement, by SplitLines (fpdf.go:2546-2571)
    and SplitText (splittext.go:26-51); they differ in the test that sets [sep].
    One unit of fuel is one iteration. *)
Section Split.
  Variable is_sep : Z -> bool.
  Variable cw : list Z.
  Variable wmax : Z.
  Variable s : list Z.
  Let nb := Z.of_nat (List.length s).

  Fixpoint split_loop (fuel : nat) (i j sep l : Z) (lines : list (list Z)) : outcome (list (list Z)) :=
    match fuel with
    | O => OutOfFuel
    | S fuel' =>
        if i <? nb then
          match at_ s i with
          | None => Panic
          | Some c =>
              match at_ cw c with
              | None => Panic                     (* cw[c] out of range *)
              | Some wc =>
                  let l := l + wc in
                  let sep := if is_sep c then i else sep in
                  if (c =? 10) || (wmax <? l) then
                    let i1 := if i =? j then i + 1 else i in
                    let i' := if sep =? -1 then i1 else sep + 1 in
                    let sep' := if sep =? -1 then i1 else sep in
                    match slice s j sep' with
                    | None => Panic
                    | Some ln => split_loop fuel' i' i' (-1) 0 (lines ++ [ln])
                    end
                  else split_loop fuel' (i + 1) j sep l lines
              end
          end
        else if i =? j then Ret lines
        else match slice s j i with
             | None => Panic
             | Some ln => Ret (lines ++ [ln])
             end
    end.

  Definition split_fuel : nat := S (S (List.length s) * S (List.length s)).
  Definition split_run : outcome (list (list Z)) := split_loop split_fuel 0 0 (-1) 0 [].
End Split.

(** fpdf.go:2531-2573 [SplitLines]: separators space, tab, newline. *)
Definition sl_sep (c : Z) : bool := (c =? 32) || (c =? 9) || (c =? 10).
Definition split_lines (cw : list Z) (wmax : Z) (txt : bytes) : outcome (list bytes) :=
  split_run sl_sep cw wmax (trim_nl (replace_all [13] [] txt)).

(** Go library unicode.IsSpace *)
Definition is_space (c : Z) : bool :=
  ((9 <=? c) && (c <=? 13)) || (c =? 32) || (c =? 133) || (c =? 160) || (c =? 5760)
  || ((8192 <=? c) && (c <=? 8202)) || (c =? 8232) || (c =? 8233) || (c =? 8239)
  || (c =? 8287) || (c =? 12288).

(** splittext.go:13-53 [SplitText]: the runes of the text; separators are white
    space and Chinese characters.  Lines are returned as rune lists; the code
    converts each with string(...), which is [go_string] of TextModel. *)
Definition st_sep (c : Z) : bool := is_space c || is_chinese c.
Definition split_text_runes (cw : list Z) (wmax : Z) (txt : list Z) : outcome (list (list Z)) :=
  split_run st_sep cw wmax (trim_nl txt).
Definition split_text (cw : list Z) (wmax : Z) (txt : bytes) : outcome (list bytes) :=
  obind (split_text_runes cw wmax (go_runes txt)) (fun ls => Ret (map go_string ls)).

(** * MultiCell (fpdf.go:2598-2785)

    The effect of MultiCell is a sequence of CellFormat calls, one per line,
    each with ln = 2.  [mc_cell] records the arguments that vary, and the word
    spacing set just before the call: the code assigns
    f.ws = float64((wmax-ls)/1000) * f.fontSize / float64(ns-1); we record the
    integer quotient (Go's / truncates) and the divisor; [NoSpacing] means that
    the call sets f.ws to 0 or leaves it alone (f.ws is 0 when MultiCell starts,
    unless the caller used SetWordSpacing). *)
Inductive spacing := NoSpacing | Spacing (q d : Z).
Record mc_cell := { mc_text : list Z; mc_border : bytes; mc_align : bytes; mc_ws : spacing;
                    mc_unfit : bool (* line ended by an automatic break *) }.

Inductive mc_result :=
| McDone (cells : list mc_cell)
| McErr (cells : list mc_cell)      (* character outside the supported range; cells so far *)
| McPanic
| McFuel.

(** fpdf.go:2639-2661: border strings for first and following lines; the code
    upper-cases nothing here.  Result (borderStr, b, b2). *)
Definition mc_borders (border : bytes) : bytes * bytes * bytes :=
  if beqb border [] then (border, bs "0", [])
  else if beqb border (bs "1") then (bs "LTRB", bs "LRT", bs "LR")
  else
    let b2 := (if containsb (bs "L") border then bs "L" else []) ++
              (if containsb (bs "R") border then bs "R" else []) in
    (border, if containsb (bs "T") border then b2 ++ bs "T" else b2, b2).

(** glyph width as MultiCell counts it, fpdf.go:2712-2720: an index outside the
    table is an error (not a panic); width 0 means missing, 65535 means zero. *)
Definition mc_width (cw : list Z) (missing : Z) (c : Z) : option Z :=
  match at_ cw c with
  | None => None
  | Some w => Some (if w =? 0 then missing else if w =? 65535 then 0 else w)
  end.

Section MultiCell.
  Variable utf8font rtl : bool.
  Variable cw : list Z.
  Variable missing : Z.                    (* currentFont.Desc.MissingWidth *)
  Variable wmax : Z.
  Variable align : bytes.                  (* after the "" -> "J" default *)
  Variable border : bytes.                 (* borderStr after the "1" expansion *)
  Variable b2 : bytes.
  Variable s : list Z.
  Let nb := Z.of_nat (List.length s).

  Definition mc_sep (c : Z) : bool := (c =? 32) || is_chinese c.

  (** alignment used for a line ended by a newline, fpdf.go:2683-2691 *)
  Definition mc_nl_align : bytes :=
    if utf8font && beqb align (bs "J") then (if rtl then bs "R" else bs "L") else align.
  (** alignment of the last chunk, fpdf.go:2772-2780 *)
  Definition mc_last_align : bytes :=
    if utf8font && beqb align (bs "J") then (if rtl then bs "R" else []) else align.

  (** b for the next line: "if len(borderStr) > 0 && nl == 2 { b = b2 }" *)
  Definition mc_next_b (b : bytes) (nl : Z) : bytes :=
    if (0 <? Z.of_nat (List.length border)) && (nl =? 2) then b2 else b.

  (** fpdf.go:2668-2762 *)
  Fixpoint mc_loop (fuel : nat) (i j sep l ls ns nl : Z) (b : bytes) (cells : list mc_cell) : mc_result :=
    match fuel with
    | O => McFuel
    | S fuel' =>
        if i <? nb then
          match at_ s i with
          | None => McPanic
          | Some c =>
              if c =? 10 then
                match slice s j i with
                | None => McPanic
                | Some ln =>
                    let cell := {| mc_text := ln; mc_border := b; mc_align := mc_nl_align;
                                   mc_ws := NoSpacing; mc_unfit := false |} in
                    mc_loop fuel' (i + 1) (i + 1) (-1) 0 ls 0 (nl + 1) (mc_next_b b (nl + 1)) (cells ++ [cell])
                end
              else
                let '(sep, ls, ns) := if mc_sep c then (i, l, ns + 1) else (sep, ls, ns) in
                match mc_width cw missing c with
                | None => McErr cells
                | Some wc =>
                    let l := l + wc in
                    if wmax <? l then
                      if sep =? -1 then
                        let i := if i =? j then i + 1 else i in
                        match slice s j i with
                        | None => McPanic
                        | Some ln =>
                            let cell := {| mc_text := ln; mc_border := b; mc_align := align;
                                           mc_ws := NoSpacing; mc_unfit := true |} in
                            mc_loop fuel' i i (-1) 0 ls 0 (nl + 1) (mc_next_b b (nl + 1)) (cells ++ [cell])
                        end
                      else
                        match slice s j sep with
                        | None => McPanic
                        | Some ln =>
                            let ws := if beqb align (bs "J") && (1 <? ns)
                                      then Spacing (Z.quot (wmax - ls) 1000) (ns - 1) else NoSpacing in
                            let cell := {| mc_text := ln; mc_border := b; mc_align := align;
                                           mc_ws := ws; mc_unfit := true |} in
                            mc_loop fuel' (sep + 1) (sep + 1) (-1) 0 ls 0 (nl + 1) (mc_next_b b (nl + 1)) (cells ++ [cell])
                        end
                    else mc_loop fuel' (i + 1) j sep l ls ns nl b cells
                end
          end
        else
          match slice s j i with
          | None => McPanic
          | Some ln =>
              let b := if containsb (bs "B") border then b ++ bs "B" else b in
              McDone (cells ++ [{| mc_text := ln; mc_border := b; mc_align := mc_last_align;
                                   mc_ws := NoSpacing; mc_unfit := false |}])
          end
    end.
End MultiCell.

(** fpdf.go:2611-2637: carriage returns removed; UTF-8 fonts work on runes and
    drop all trailing newlines, others on bytes and drop one. *)
Definition mc_text_of (utf8font : bool) (txt : bytes) : list Z :=
  let s := replace_all [13] [] txt in
  if utf8font then trim_nl (go_runes s)
  else match rev s with c :: r => if c =? 10 then rev r else s | [] => s end.

(** fpdf.go:2598-2785 [MultiCell] (the width w and line height h are the same
    for every cell and not recorded; assumes f.err == nil and that CellFormat
    does not fail). *)
Definition multi_cell (utf8font rtl : bool) (cw : list Z) (missing wmax : Z)
    (txt border align : bytes) : mc_result :=
  let align := if beqb align [] then bs "J" else align in
  let s := mc_text_of utf8font txt in
  let '(border, b, b2) := mc_borders border in
  mc_loop utf8font rtl cw missing wmax align border b2 s (split_fuel s) 0 0 (-1) 0 0 0 1 b [].

(** fpdf.go:957-985 [GetStringSymbolWidth] (f.err == nil).  Note the test
    "len(Cw) >= intChar" (line 966), one too many. *)
Definition symw_rune (cw : list Z) (missing : Z) (c : Z) : outcome Z :=
  let dflt := if missing =? 0 then 500 else missing in
  if c <=? Z.of_nat (List.length cw) then
    match at_ cw c with
    | None => Panic
    | Some w => if 0 <? w then Ret (if w =? 65535 then 0 else w) else Ret dflt
    end
  else Ret dflt.
Fixpoint symw_runes (cw : list Z) (missing : Z) (t : list Z) (w : Z) : outcome Z :=
  match t with
  | [] => Ret w
  | c :: t' => obind (symw_rune cw missing c) (fun x => symw_runes cw missing t' (w + x))
  end.
Fixpoint symw_bytes (cw : list Z) (t : bytes) (w : Z) : outcome Z :=
  match t with
  | [] => Ret w
  | c :: t' => if c =? 0 then Ret w
               else match at_ cw c with None => Panic | Some x => symw_bytes cw t' (w + x) end
  end.
Definition string_symbol_width (utf8font : bool) (cw : list Z) (missing : Z) (txt : bytes) : outcome Z :=
  if utf8font then symw_runes cw missing (go_runes txt) 0 else symw_bytes cw txt 0.
