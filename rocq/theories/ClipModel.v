(** Clipping, transformation contexts and gradients of fpdf.go as operators, over
    the real numbers.  Content of a page only (the document is on a page).
    [rd2] and [rd5] are the rounding of %.2f and %.5f. *)
From Coq Require Import Reals Lra.
From Verif Require Import Base TextModel TextSpec DrawSpec DrawModel ClipSpec.
From Coq Require Import String.
Local Open Scope list_scope.
Local Open Scope R_scope.

(** the arguments of ClipRect, ClipText, ClipRoundedRectExt, ClipEllipse and ClipPolygon *)
Inductive clip_args :=
| CRect (x y w h : R) | CText (x y : R) (txt : bytes) | CRound (x y w h rTL rTR rBR rBL : R) | CEllipse (x y rx ry : R) | CPoly (l : list point).
Inductive kcall :=
| KLine (a b : point) | KRect (x y w h : R) (style : bytes) | KPoly (l : list point) (style : bytes)
| KGrad (tp : Z) (x y w h : R) (c1 c2 : Z * Z * Z) (x1 y1 x2 y2 r : R)
| KClip (s : clip_args) (outline : bool) | KClipEnd | KBegin | KTransform (m : matrix) | KEnd.
(** def.go:39-44 [gradientType], the colors as they are printed *)
Record grad := { q_tp : Z; q_c1 : R * R * R; q_c2 : R * R * R; q_xy : R * R * R * R * R }.
(** the fields of the document the calls use; [p_grads] without the unused entry 0 *)
Record pst := { p_clip : nat; p_trans : nat; p_err : bool; p_grads : list grad; p_ops : list cop }.

Section Clip.
  Variables (rd2 rd5 rd3 : R -> R).
  Variables (k h : R).
  Variable upper : bytes -> bytes.
  Variable isz : R -> bool.
  Notation at2 := (at2 rd2 k h). Notation at5 := (at5 rd5 k h).
  Definition put (l : list cop) (s : pst) : pst := {| p_clip := p_clip s; p_trans := p_trans s; p_err := p_err s; p_grads := p_grads s; p_ops := p_ops s ++ l |}.
  (** fpdf.go:854-861 [colorComp], fpdf.go:863-879 [rgbColorValue] without operator names *)
  Definition comp255 (v : Z) : R := rd3 (IZR (if (v <? 0)%Z then 0 else if (v >? 255)%Z then 255 else v) / 255).
  Definition rgb3 (c : Z * Z * Z) : R * R * R := let '(r, g, b) := c in (comp255 r, comp255 g, comp255 b).
  (** strIf util.go, as used for outline *)
  Definition S_or_n (outline : bool) : cop := if outline then G (Opaint (bs "S")) else N.
  (** fpdf.go:1453-1456 [ClipRect], fpdf.go:1466-1469 [ClipText], fpdf.go:1495-1499 [ClipRoundedRectExt] (ClipRoundedRect fpdf.go:1487-1489 passes one radius four times),
      fpdf.go:1544-1568 [ClipEllipse] (ClipCircle fpdf.go:1578-1580 passes one radius twice), fpdf.go:1593-1604 [ClipPolygon]: the operators they write *)
  Definition clip_ops (s : clip_args) (outline : bool) : list cop :=
    match s with
    | CRect x y w ht => [G Oq; G (Ore (at2 x y) (rd2 (w * k)) (rd2 (- ht * k))); W; S_or_n outline]
    | CText x y txt => [G Oq; Txt (at5 x y) (if outline then 5 else 7) (textstring txt)]      (* (, escape, ) *)
    | CRound x y w ht tl tr br bl => G Oq :: map G (rounded_path rd5 k h isz (sqrt 2) x y w ht tl tr br bl) ++ [W; S_or_n outline]
    | CEllipse x y rx ry =>
        let lx := 4 / 3 * rx * (sqrt 2 - 1) in let ly := 4 / 3 * ry * (sqrt 2 - 1) in
        let arc x1 y1 x2 y2 x3 y3 := G (Oc (at5 x1 y1) (at5 x2 y2) (at5 x3 y3)) in
        [G Oq; G (Om (at5 (x + rx) y));
         arc (x + rx) (y - ly) (x + lx) (y - ry) x (y - ry);
         arc (x - lx) (y - ry) (x - rx) (y - ly) (x - rx) y;
         arc (x - rx) (y + ly) (x - lx) (y + ry) x (y + ry);
         arc (x + lx) (y + ry) (x + rx) (y + ly) (x + rx) y;
         W; S_or_n outline]
    | CPoly l => G Oq :: match l with [] => [] | p :: t => G (Om (at5 (fst p) (snd p))) :: map (fun p => G (Ol (at5 (fst p) (snd p)))) t end ++ [G Oh; W; S_or_n outline]
    end.
  Definition kexec (c : kcall) (s : pst) : pst :=
    match c with
    | KLine a b => put (map G (line rd2 k h (fst a) (snd a) (fst b) (snd b))) s
    | KRect x y w ht style => put (map G (rect rd2 k h upper x y w ht style)) s
    | KPoly l style => put (map G (polygon rd2 rd5 k h upper l style)) s
    | KGrad tp x y w ht c1 c2 x1 y1 x2 y2 r =>
        (* fpdf.go:1377-1382 [gradientClipStart], fpdf.go:1389-1396 [gradient], fpdf.go:1384-1387 [gradientClipEnd]; fpdf.go:1414-1418 [LinearGradient] has tp = 2 and r = 0, fpdf.go:1438-1442 [RadialGradient] tp = 3 *)
        let pos := Z.of_nat (S (List.length (p_grads s))) in
        put [G Oq; G (Ore (at2 x y) (rd2 (w * k)) (rd2 (- ht * k))); W; N;
             G (Ocm (rd5 (w * k)) 0 0 (rd5 (ht * k)) (rd5 (x * k)) (rd5 ((h - (y + ht)) * k))); Sh pos; G OQ]
          {| p_clip := p_clip s; p_trans := p_trans s; p_err := p_err s;
             p_grads := p_grads s ++ [{| q_tp := tp; q_c1 := rgb3 c1; q_c2 := rgb3 c2; q_xy := (x1, y1, x2, y2, r) |}]; p_ops := p_ops s |}
    | KClip a o => put (clip_ops a o) {| p_clip := S (p_clip s); p_trans := p_trans s; p_err := p_err s; p_grads := p_grads s; p_ops := p_ops s |}
    | KClipEnd =>                                             (* fpdf.go:1612-1621 [ClipEnd] *)
        if p_err s then s
        else match p_clip s with
             | S n => put [G OQ] {| p_clip := n; p_trans := p_trans s; p_err := p_err s; p_grads := p_grads s; p_ops := p_ops s |}
             | O => {| p_clip := O; p_trans := p_trans s; p_err := true; p_grads := p_grads s; p_ops := p_ops s |}
             end
    | KBegin => put [G Oq] {| p_clip := p_clip s; p_trans := S (p_trans s); p_err := p_err s; p_grads := p_grads s; p_ops := p_ops s |} (* fpdftrans.go:23-26 [TransformBegin] *)
    | KTransform m =>                                         (* fpdftrans.go:194-201 [Transform] *)
        let '(a, b, c, d, e, f) := m in
        match p_trans s with
        | S _ => put [G (Ocm (rd5 a) (rd5 b) (rd5 c) (rd5 d) (rd5 e) (rd5 f))] s
        | O => {| p_clip := p_clip s; p_trans := p_trans s; p_err := true; p_grads := p_grads s; p_ops := p_ops s |}
        end
    | KEnd =>                                                 (* fpdftrans.go:206-213 [TransformEnd] *)
        match p_trans s with
        | S n => put [G OQ] {| p_clip := p_clip s; p_trans := n; p_err := p_err s; p_grads := p_grads s; p_ops := p_ops s |}
        | O => {| p_clip := p_clip s; p_trans := p_trans s; p_err := true; p_grads := p_grads s; p_ops := p_ops s |}
        end
    end.
  Definition kcalls (l : list kcall) (s : pst) : pst := fold_left (fun s c => kexec c s) l s.
End Clip.
Definition pst0 : pst := {| p_clip := 0; p_trans := 0; p_err := false; p_grads := []; p_ops := [] |}.
