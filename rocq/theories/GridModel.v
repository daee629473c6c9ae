(** grid.go and label.go: axes, tick marks, grid lines and plots.  The
    arithmetic is a parameter, with the functions of package math used here. *)
From Verif Require Import Base ApiModel.
Open Scope Z_scope.

Record math_env (A : arith) := mk_math {
  floor_ : num A -> num A; ceil_ : num A -> num A; log10_ : num A -> num A;
  pow10_ : Z -> num A;       (* math.Pow10 *)
  int_ : num A -> Z          (* the conversion int(x), used on whole numbers only *)
}.
Arguments floor_ {A}. Arguments ceil_ {A}. Arguments log10_ {A}. Arguments pow10_ {A}. Arguments int_ {A}.

Section Grid.
  Context {A : arith} (E : math_env A).
  Infix "+f" := (nadd A) (at level 50). Infix "-f" := (nsub A) (at level 50).
  Infix "*f" := (nmul A) (at level 40). Infix "/f" := (ndiv A) (at level 40).
  Infix "<f" := (nlt A) (at level 70).
  Notation "% n" := (ofZ A n) (at level 5, n at level 0).

  (** label.go:30-59 [niceNum]; f <= 1 is not (1 < f) for numbers *)
  Definition nice_num (val : num A) (round : bool) : num A :=
    let exp := int_ E (floor_ E (log10_ E val)) in
    let f := val /f pow10_ E exp in
    let nf := if round
              then if f <f (%3 /f %2) then %1 else if f <f %3 then %2 else if f <f %7 then %5 else %10
              else if negb (%1 <f f) then %1 else if negb (%2 <f f) then %2 else if negb (%5 <f f) then %5 else %10 in
    nf *f pow10_ E exp.
  (** label.go:63-65 [TickmarkPrecision] *)
  Definition tick_precision (d : num A) : Z := Z.max (- int_ E (floor_ E (log10_ E d))) 0.

  (** label.go:77-79: for x := graphMin; x < graphMax+0.5*d; x += d *)
  Fixpoint tick_loop (fuel : nat) (x limit d : num A) : outcome (list (num A)) :=
    if x <f limit then
      match fuel with
      | O => OutOfFuel
      | S k => obind (tick_loop k (x +f d) limit d) (fun l => Ret (x :: l))
      end
    else Ret [].
  (** label.go:70-82 [Tickmarks] *)
  Definition tickmarks (fuel : nat) (min max : num A) : outcome (list (num A) * Z) :=
    if min <f max then
      let spread := nice_num (max -f min) false in
      let d := nice_num (spread /f %4) true in
      let lo := floor_ E (min /f d) *f d in
      let hi := ceil_ E (max /f d) *f d in
      obind (tick_loop fuel lo (hi +f ((%1 /f %2) *f d)) d) (fun l => Ret (l, tick_precision d))
    else Ret ([], 0).

  (** grid.go:99-105 [linear] *)
  Definition linear (x1 y1 x2 y2 : num A) : num A * num A :=
    if negb (neq A x2 x1) then let slope := (y2 -f y1) /f (x2 -f x1) in (slope, y2 -f (x2 *f slope)) else (%0, %0).
  (** grid.go:110-116 [linearTickmark] *)
  Definition linear_ticks (tm : list (num A)) (lo hi : num A) : num A * num A :=
    match tm with [] => (%0, %0) | t :: _ => linear t lo (last tm t) hi end.
  (** grid.go:247-255 [extent]; the panic of make for a negative length *)
  Fixpoint extent_loop (n : nat) (m d : num A) : list (num A) := match n with O => [] | S k => m :: extent_loop k (m +f d) d end.
  Definition extent (m d : num A) (count : Z) : outcome (list (num A) * Z) :=
    if count + 1 <? 0 then Panic else Ret (extent_loop (Z.to_nat (count + 1)) m d, tick_precision d).

  (** grid.go:69-93, type GridType: the fields used here *)
  Record grid := mk_grid {
    gx : num A; gy : num A; gw : num A; gh : num A;
    xm : num A; xb : num A; ym : num A; yb : num A;
    x_ticks : list (num A); y_ticks : list (num A); x_prec : Z; y_prec : Z; x_div : Z; y_div : Z }.
  Definition set_x (g : grid) (t : list (num A) * Z) : grid :=
    let '(m, b) := linear_ticks (fst t) (gx g) (gx g +f gw g) in
    mk_grid (gx g) (gy g) (gw g) (gh g) m b (ym g) (yb g) (fst t) (y_ticks g) (snd t) (y_prec g) (x_div g) (y_div g).
  Definition set_y (g : grid) (t : list (num A) * Z) : grid :=
    let '(m, b) := linear_ticks (fst t) (gy g +f gh g) (gy g) in
    mk_grid (gx g) (gy g) (gw g) (gh g) (xm g) (xb g) m b (x_ticks g) (fst t) (x_prec g) (snd t) (x_div g) (y_div g).
  (** grid.go:230-233 [TickmarksContainX], grid.go:242-245 [TickmarksContainY] *)
  Definition contain_x (fuel : nat) (min max : num A) (g : grid) : outcome grid := obind (tickmarks fuel min max) (fun t => Ret (set_x g t)).
  Definition contain_y (fuel : nat) (min max : num A) (g : grid) : outcome grid := obind (tickmarks fuel min max) (fun t => Ret (set_y g t)).
  (** grid.go:264-267 [TickmarksExtentX], grid.go:276-279 [TickmarksExtentY] *)
  Definition extent_x (min div : num A) (count : Z) (g : grid) : outcome grid := obind (extent min div count) (fun t => Ret (set_x g t)).
  Definition extent_y (min div : num A) (count : Z) (g : grid) : outcome grid := obind (extent min div count) (fun t => Ret (set_y g t)).
  (** grid.go:130-151 [NewGrid] *)
  Definition new_grid (x y w h : num A) : outcome grid :=
    obind (extent_x (%0) (%1) 1 (mk_grid x y w h (%0) (%0) (%0) (%0) [] [] 0 0 10 10)) (extent_y (%0) (%1) 1).

  (** grid.go:155-157 [WdAbs] is left out; grid.go:161-163 [Wd], grid.go:167-169 [XY],
      grid.go:175-179 [Pos], grid.go:183-185 [X], grid.go:195-197 [Ht], grid.go:201-203 [Y] *)
  Definition wd (g : grid) (v : num A) : num A := xm g *f v.
  Definition ht (g : grid) (v : num A) : num A := ym g *f v.
  Definition px (g : grid) (v : num A) : num A := (xm g *f v) +f xb g.
  Definition py (g : grid) (v : num A) : num A := (ym g *f v) +f yb g.
  Definition pos (g : grid) (xr yr : num A) : num A * num A := ((gw g *f xr) +f gx g, (gh g *f (%1 -f yr)) +f gy g).

  (** a line drawn, with its kind: true is a main line *)
  Definition line : Type := (num A * num A) * (num A * num A) * bool.
  (** grid.go:344-353 and grid.go:361-370: one tick and the subdivisions after it *)
  Fixpoint subdivide (n : nat) (at_ d : num A) (seg : num A -> bool -> line) : list line :=
    match n with O => [] | S k => let p := at_ +f d in seg p false :: subdivide k p d seg end.
  Fixpoint axis_lines (ticks : list (num A)) (place : num A -> num A) (n : nat) (d : num A) (seg : num A -> bool -> line) : list line :=
    match ticks with
    | [] => []
    | t :: r => (seg (place t) true :: match r with [] => [] | _ => subdivide n (place t) d seg end) ++ axis_lines r place n d seg
    end.
  Definition axis_div (ticks : list (num A)) (n : Z) : num A :=
    match ticks with t0 :: t1 :: _ => if 0 <? n then (t1 -f t0) /f %n else t1 -f t0 | _ => %0 end.
  (** grid.go:296-422 [Grid]: the lines, in order; labels and attributes are left out *)
  Definition grid_lines (g : grid) : list line :=
    match x_ticks g, y_ticks g with
    | x0 :: _ :: _, y0 :: _ :: _ =>
        let lf := px g x0 in let rt := px g (last (x_ticks g) x0) in
        let bt := py g y0 in let tp := py g (last (y_ticks g) y0) in
        axis_lines (x_ticks g) (px g) (Z.to_nat (x_div g - 1)) (wd g (axis_div (x_ticks g) (x_div g))) (fun x heavy => ((x, tp), (x, bt), heavy))
        ++ axis_lines (y_ticks g) (py g) (Z.to_nat (y_div g - 1)) (ht g (axis_div (y_ticks g) (y_div g))) (fun y heavy => ((lf, y), (rt, y), heavy))
    | _, _ => []
    end.

  (** grid.go:427-446 [Plot]: the segments drawn, and the arguments fnc is called
      with, in order *)
  Fixpoint plot_loop (g : grid) (fnc : num A -> num A) (delta : num A) (n : nat) (x : num A) (p0 p1 : num A * num A) : list ((num A * num A) * (num A * num A)) * list (num A) :=
    match n with
    | O => ([], [])
    | S k => let x' := x +f delta in
             let '(l, c) := plot_loop g fnc delta k x' p1 (px g x', py g (fnc x')) in
             ((p0, p1) :: l, x' :: c)
    end.
  Definition plot (g : grid) (xmin xmax : num A) (count : Z) (fnc : num A -> num A) : list ((num A * num A) * (num A * num A)) * list (num A) :=
    if 0 <? count then
      let delta := (xmax -f xmin) /f %count in
      let p0 := (px g xmin, py g (fnc xmin)) in
      let x1 := xmin +f delta in
      let '(l, c) := plot_loop g fnc delta (Z.to_nat count) x1 p0 (px g x1, py g (fnc x1)) in
      (l, xmin :: x1 :: c)
    else ([], []).
End Grid.
