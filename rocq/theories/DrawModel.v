(** The drawing calls of fpdf.go as lists of operators, over the real numbers.
    [rd2] and [rd5] are the rounding of %.2f and %.5f. *)
From Coq Require Import String.
From Coq Require Import Reals Lra.
From Verif Require Import Base DrawSpec.
Local Open Scope R_scope.

Section Draw.
  Variables (rd2 rd5 : R -> R).
  Variables (k h : R).                                      (* f.k and f.h *)
  Variable upper : bytes -> bytes.                           (* strings.ToUpper *)
  Definition at2 (x y : R) : point := (rd2 (x * k), rd2 ((h - y) * k)).
  Definition at5 (x y : R) : point := (rd5 (x * k), rd5 ((h - y) * k)).

  (** fpdf.go:1090-1111 [fillDrawOp] *)
  Definition fill_draw_op (style : bytes) : bytes :=
    let u := upper style in
    if beqb u [] || beqb u (bs "D") then bs "S" else if beqb u (bs "F") then bs "f" else if beqb u (bs "F*") then bs "f*"
    else if beqb u (bs "FD") || beqb u (bs "DF") then bs "B" else if beqb u (bs "FD*") || beqb u (bs "DF*") then bs "B*" else style.

  (** fpdf.go:1085-1087 [Line] *)
  Definition line (x1 y1 x2 y2 : R) : list op := [Om (at2 x1 y1); Ol (at2 x2 y2); Opaint (bs "S")].
  (** fpdf.go:1121-1123 [Rect] *)
  Definition rect (x y w ht : R) (style : bytes) : list op := [Ore (at2 x y) (rd2 (w * k)) (rd2 (- ht * k)); Opaint (fill_draw_op style)].
  (** fpdf.go:1244-1246 [point] *)
  Definition opoint (x y : R) : op := Om (at2 x y).
  (** fpdf.go:1249-1253 [curve] *)
  Definition ocurve (cx0 cy0 cx1 cy1 x y : R) : op := Oc (at5 cx0 cy0) (at5 cx1 cy1) (at5 x y).
  (** fpdf.go:1197-1209 [Polygon] *)
  Definition polygon (points : list point) (style : bytes) : list op :=
    match points with
    | p0 :: ((_ :: _ :: _) as rest) => opoint (fst p0) (snd p0) :: map (fun p => Ol (at5 (fst p) (snd p))) rest ++ [Ol (at5 (fst p0) (snd p0)); Opaint (fill_draw_op style)]
    | _ => []
    end.
  (** fpdf.go:1222-1241 [Beziergon] *)
  Fixpoint bez_groups (points : list point) : list op :=
    match points with
    | c0 :: c1 :: p :: t => ocurve (fst c0) (snd c0) (fst c1) (snd c1) (fst p) (snd p) :: bez_groups t
    | _ => []
    end.
  Definition beziergon (points : list point) (style : bytes) : list op :=
    match points with
    | p0 :: ((_ :: _ :: _ :: _) as rest) => opoint (fst p0) (snd p0) :: bez_groups rest ++ [Opaint (fill_draw_op style)]
    | _ => []
    end.
  (** fpdf.go:1268-1272 [Curve] *)
  Definition curve_quad (x0 y0 cx cy x1 y1 : R) (style : bytes) : list op := [opoint x0 y0; Ov (at5 cx cy) (at5 x1 y1); Opaint (fill_draw_op style)].
  (** fpdf.go:1300-1304 [CurveBezierCubic] *)
  Definition curve_bezier (x0 y0 cx0 cy0 cx1 cy1 x1 y1 : R) (style : bytes) : list op :=
    [opoint x0 y0; Oc (at5 cx0 cy0) (at5 cx1 cy1) (at5 x1 y1); Opaint (fill_draw_op style)].
  (** fpdf.go:1277-1282 [CurveCubic] *)
  Definition curve_cubic (x0 y0 cx0 cy0 x1 y1 cx1 cy1 : R) (style : bytes) : list op := curve_bezier x0 y0 cx0 cy0 cx1 cy1 x1 y1 style.
  (** fpdf.go:1504-1533 [roundedRectPath] with fpdf.go:1471-1475 [clipArc], without
      the leading q; [isz] tells whether a number is zero, [sqrt2] is math.Sqrt2 *)
  Variable isz : R -> bool.
  Variable sqrt2 : R.
  Definition rounded_path (x y w ht rTL rTR rBR rBL : R) : list op :=
    let my := 4 / 3 * (sqrt2 - 1) in
    let arc x1 y1 x2 y2 x3 y3 := Oc (at5 x1 y1) (at5 x2 y2) (at5 x3 y3) in
    Om (at5 (x + rTL) y) ::
    (let xc := x + w - rTR in let yc := y + rTR in
     Ol (at5 xc y) :: (if isz rTR then [] else [arc (xc + rTR * my) (yc - rTR) (xc + rTR) (yc - rTR * my) (xc + rTR) yc])) ++
    (let xc := x + w - rBR in let yc := y + ht - rBR in
     Ol (at5 (x + w) yc) :: (if isz rBR then [] else [arc (xc + rBR) (yc + rBR * my) (xc + rBR * my) (yc + rBR) xc (yc + rBR)])) ++
    (let xc := x + rBL in let yc := y + ht - rBL in
     Ol (at5 xc (y + ht)) :: (if isz rBL then [] else [arc (xc - rBL * my) (yc + rBL) (xc - rBL) (yc + rBL * my) (xc - rBL) yc])) ++
    (let xc := x + rTL in let yc := y + rTL in
     Ol (at5 x yc) :: (if isz rTL then [] else [arc (xc - rTL) (yc - rTL * my) (xc - rTL * my) (yc - rTL) xc (yc - rTL)])).
  (** fpdf.go:1157-1160 [RoundedRectExt] *)
  Definition rounded_rect (x y w ht rTL rTR rBR rBL : R) (style : bytes) : list op := Oq :: rounded_path x y w ht rTL rTR rBR rBL ++ [Opaint (fill_draw_op style)].

  (** Paths built from calls: fpdf.go:4840-4843 [MoveTo], fpdf.go:4850-4853 [LineTo],
      fpdf.go:4863-4866 [CurveTo], fpdf.go:4877-4880 [CurveBezierCubicTo], fpdf.go:4887-4889 [ClosePath],
      fpdf.go:4909-4911 [DrawPath] *)
  Inductive pcall := PMove (x y : R) | PLine (x y : R) | PQuad (cx cy x y : R) | PCubic (cx0 cy0 cx1 cy1 x y : R) | PClose.
  Definition pcall_ops (c : pcall) : op :=
    match c with
    | PMove x y => opoint x y | PLine x y => Ol (at2 x y) | PQuad cx cy x y => Ov (at5 cx cy) (at5 x y)
    | PCubic cx0 cy0 cx1 cy1 x y => ocurve cx0 cy0 cx1 cy1 x y | PClose => Oh
    end.
  Definition draw_path (calls : list pcall) (style : bytes) : list op := map pcall_ops calls ++ [Opaint (fill_draw_op style)].

  (** fpdf.go:4932-4998 [arc], fpdf.go:1320-1322 [Arc]; [path] is the position when the arc continues a path.
      The second result is the new position.  int() truncates. *)
  Definition trunc (r : R) : Z := if Rle_dec 0 r then Int_part r else (- Int_part (- r))%Z.
  Definition segments (deg : R) : nat := Z.to_nat (Z.max 2 (Z.quot (trunc deg) 60)).
  Fixpoint arc_loop (n : nat) (j : nat) (x y rx ry dt start a0 b0 c0 d0 : R) : list op :=
    match n with
    | O => []
    | S n =>
        let t := INR j * dt + start in
        let a1 := x + rx * cos t in let b1 := y + ry * sin t in let c1 := - rx * sin t in let d1 := ry * cos t in
        ocurve ((a0 + c0 * (dt / 3)) / k) (h - (b0 + d0 * (dt / 3)) / k) ((a1 - c1 * (dt / 3)) / k) (h - (b1 - d1 * (dt / 3)) / k) (a1 / k) (h - b1 / k) ::
        arc_loop n (S j) x y rx ry dt start a1 b1 c1 d1
    end.
  Variable eqb : R -> R -> bool.                               (* == of numbers *)
  Definition arc (x y rx ry rot dstart dend : R) (style : bytes) (path : option point) : list op * option point :=
    let x := x * k in let y := (h - y) * k in let rx := rx * k in let ry := ry * k in
    let n := segments (dend - dstart) in
    let start := dstart * PI / 180 in let total := dend * PI / 180 - start in
    let dt := total / INR n in
    let a := - rot * PI / 180 in
    let rotates := negb (isz rot) in
    let head := if rotates then [Oq; Ocm (rd5 (cos a)) (rd5 (-1 * sin a)) (rd5 (sin a)) (rd5 (cos a)) (rd5 x) (rd5 y)] else [] in
    let x := if rotates then 0 else x in let y := if rotates then 0 else y in
    let a0 := x + rx * cos start in let b0 := y + ry * sin start in let c0 := - rx * sin start in let d0 := ry * cos start in
    let sx := a0 / k in let sy := h - b0 / k in
    let begin := match path with
                 | Some p => if eqb (fst p) sx && eqb (snd p) sy then [] else [Ol (at2 sx sy)]
                 | None => [opoint sx sy]
                 end in
    let tl := INR n * dt + start in
    (head ++ begin ++ arc_loop n 1 x y rx ry dt start a0 b0 c0 d0 ++
     match path with Some _ => [] | None => [Opaint (fill_draw_op style)] end ++ (if rotates then [OQ] else []),
     match path with Some _ => Some ((x + rx * cos tl) / k, h - (y + ry * sin tl) / k) | None => None end).
  (** fpdf.go:1184-1186 [Ellipse], fpdf.go:1168-1170 [Circle] *)
  Definition draw_ellipse (x y rx ry rot : R) (style : bytes) : list op := fst (arc x y rx ry rot 0 360 style None).
  Definition draw_circle (x y r : R) (style : bytes) : list op := draw_ellipse x y r r 0 style.
  (** fpdf.go:4928-4930 [ArcTo]: [pos] is the position the document remembers *)
  Definition arc_to (x y rx ry rot dstart dend : R) (pos : point) : list op * option point := arc x y rx ry rot dstart dend [] (Some pos).
End Draw.
