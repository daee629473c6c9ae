(** Model of flowing text output, fpdf.go:2788-2890 [write] (Write, Writef,
    WriteLinkString, WriteLinkID).

    What the loop reads of the page geometry: whether the cursor is to the
    right of the left margin (f.x > f.lMargin), the room on the current line
    and the room on a full line, each as wmax = (w - 2*f.cMargin)*1000/f.fontSize
    (a float64 compared with a sum of integer widths: l > wmax iff l > floor wmax,
    so the model carries the floor; an infinite or NaN wmax, from a zero font
    size, is never exceeded and corresponds to a large value).
    The effects recorded: the CellFormat calls (with ln = 2 for a broken line,
    ln = 0 for the last chunk) and the "move to next line" step. *)
From Verif Require Import Base TextModel LineModel.
Open Scope Z_scope.

Inductive wevent :=
| WLine (txt : list Z)          (* CellFormat(w, h, txt, "", 2, ...) *)
| WMove                         (* f.x = f.lMargin; f.y += h, fpdf.go:2843-2851 *)
| WLast (txt : list Z) (l : Z)  (* CellFormat(l/1000*f.fontSize, h, txt, "", 0, ...) *)
| WAdvance.                     (* UTF-8 font, text " ": only f.x advances, fpdf.go:2797-2800 *)

Section Write.
  Variable cw : list Z.
  Variable wfull : Z.             (* wmax of a line starting at the left margin *)
  Variable s : list Z.
  Let nb := Z.of_nat (List.length s).

  (** fpdf.go:2809-2881; [right] is f.x > f.lMargin, [wm] the current wmax.
      "if nl == 1 { f.x = f.lMargin; ... }" after a break. *)
  Fixpoint write_loop (fuel : nat) (right : bool) (wm i j sep l nl : Z) (evs : list wevent) : outcome (list wevent) :=
    match fuel with
    | O => OutOfFuel
    | S fuel' =>
        if i <? nb then
          match at_ s i with
          | None => Panic
          | Some c =>
              let right' := if nl =? 1 then false else right in
              let wm' := if nl =? 1 then wfull else wm in
              if c =? 10 then
                match slice s j i with
                | None => Panic
                | Some ln => write_loop fuel' right' wm' (i + 1) (i + 1) (-1) 0 (nl + 1) (evs ++ [WLine ln])
                end
              else
                let sep := if c =? 32 then i else sep in
                match at_ cw c with
                | None => Panic
                | Some wc =>
                    let l := l + wc in
                    if wm <? l then
                      if sep =? -1 then
                        if right then write_loop fuel' false wfull (i + 1) j sep l (nl + 1) (evs ++ [WMove])
                        else
                          let i := if i =? j then i + 1 else i in
                          match slice s j i with
                          | None => Panic
                          | Some ln => write_loop fuel' right' wm' i i (-1) 0 (nl + 1) (evs ++ [WLine ln])
                          end
                      else
                        match slice s j sep with
                        | None => Panic
                        | Some ln => write_loop fuel' right' wm' (sep + 1) (sep + 1) (-1) 0 (nl + 1) (evs ++ [WLine ln])
                        end
                    else write_loop fuel' right wm (i + 1) j sep l nl evs
                end
          end
        else if i =? j then Ret evs
        else match slice s j nb with
             | None => Panic
             | Some ln => Ret (evs ++ [WLast ln l])
             end
    end.
End Write.

(** fpdf.go:2788-2890 [write] *)
Definition write (utf8font : bool) (cw : list Z) (right : bool) (wroom wfull : Z) (txt : bytes) : outcome (list wevent) :=
  let t := replace_all [13] [] txt in
  let s := if utf8font then go_runes t else t in
  if utf8font && (Z.of_nat (List.length s) =? 1) && beqb t [32] then Ret [WAdvance]
  else write_loop cw wfull s (split_fuel s) right wroom 0 0 (-1) 0 1 [].
