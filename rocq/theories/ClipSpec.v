(** Clipping, shadings and graphics states in PDF content streams (ISO 32000-1,
    8.4.2, 8.5.4, 8.7.4.2, 9.3.6), over the real numbers, and what a drawing made
    of shapes, gradients, clipped parts and transformed parts is supposed to show. *)
From Coq Require Import Reals Lra.
From Verif Require Import Base TextSpec LineSpec CellModel CellSpec DrawSpec.
From Coq Require Import String.
Local Open Scope list_scope.
Local Open Scope R_scope.

(** ** What a viewer does *)
(** [G o]: an operator of DrawSpec; W; n; sh with the number of the shading; and a
    text object that places one string in a text rendering mode *)
Inductive cop := G (o : op) | W | N | Sh (j : Z) | Txt (p : point) (mode : Z) (lit : bytes).
(** A clip: an outline, or the glyphs of a string, each with the matrix that takes
    its coordinates to the page. *)
Inductive mask := Inside (m : matrix) (outline : list seg) | Glyphs (m : matrix) (p : point) (codes : list Z).
Inductive event :=
| Painted (clips : list mask) (m : matrix) (how : bytes) (l : list seg)
| Stroked (clips : list mask) (m : matrix) (p : point) (codes : list Z)
| Shaded (clips : list mask) (m : matrix) (j : Z).
(** the path is kept in the coordinates it was given in: the matrix cannot change
    while a path is being built *)
Record vstate := { v_ctm : matrix; v_clips : list mask; v_stack : list (matrix * list mask);
  v_cur : option point; v_start : point; v_path : list seg; v_W : bool; v_done : list event }.
Section Viewer.
  Variable two : bool.                       (* the current font takes two bytes for a character *)
  Definition grow (z : vstate) (s : list seg) (cur start : point) : vstate :=
    {| v_ctm := v_ctm z; v_clips := v_clips z; v_stack := v_stack z; v_cur := Some cur; v_start := start; v_path := v_path z ++ s; v_W := v_W z; v_done := v_done z |}.
  Definition finish (z : vstate) (ev : list event) : vstate :=
    {| v_ctm := v_ctm z; v_clips := v_clips z ++ (if v_W z then [Inside (v_ctm z) (v_path z)] else []); v_stack := v_stack z; v_cur := None; v_start := v_start z; v_path := []; v_W := false;
       v_done := v_done z ++ ev |}.
  (** [None]: the operator is not allowed here *)
  Definition vstep (o : cop) (z : vstate) : option vstate :=
    match o, v_cur z with
    | G (Om p), _ => if v_W z then None else Some (grow z [] p p)
    | G (Ol p), Some c => if v_W z then None else Some (grow z [Straight c p] p (v_start z))
    | G (Oc c1 c2 p), Some c => if v_W z then None else Some (grow z [Bez c c1 c2 p] p (v_start z))
    | G (Ov c2 p), Some c => if v_W z then None else Some (grow z [Bez c c c2 p] p (v_start z))
    | G Oh, Some c => if v_W z then None else Some (grow z [Straight c (v_start z)] (v_start z) (v_start z))
    | G (Ore p w h), _ =>
        let b := (fst p + w, snd p) in let c := (fst p + w, snd p + h) in let d := (fst p, snd p + h) in
        if v_W z then None else Some (grow z [Straight p b; Straight b c; Straight c d; Straight d p] p p)
    | G Oq, None => Some {| v_ctm := v_ctm z; v_clips := v_clips z; v_stack := (v_ctm z, v_clips z) :: v_stack z; v_cur := None; v_start := v_start z; v_path := v_path z; v_W := v_W z; v_done := v_done z |}
    | G OQ, None => match v_stack z with
                    | (m, c) :: t => Some {| v_ctm := m; v_clips := c; v_stack := t; v_cur := None; v_start := v_start z; v_path := v_path z; v_W := v_W z; v_done := v_done z |}
                    | [] => None
                    end
    | G (Ocm a b c d e f), None =>
        Some {| v_ctm := mat_then (a, b, c, d, e, f) (v_ctm z); v_clips := v_clips z; v_stack := v_stack z; v_cur := None; v_start := v_start z; v_path := v_path z; v_W := v_W z; v_done := v_done z |}
    | G (Opaint how), Some _ => Some (finish z [Painted (v_clips z) (v_ctm z) how (v_path z)])
    | N, Some _ => Some (finish z [])
    | W, Some c => Some {| v_ctm := v_ctm z; v_clips := v_clips z; v_stack := v_stack z; v_cur := Some c; v_start := v_start z; v_path := v_path z; v_W := true; v_done := v_done z |}
    | Sh j, None => Some {| v_ctm := v_ctm z; v_clips := v_clips z; v_stack := v_stack z; v_cur := None; v_start := v_start z; v_path := v_path z; v_W := v_W z; v_done := v_done z ++ [Shaded (v_clips z) (v_ctm z) j] |}
    | Txt p mode lit, None =>            (* modes 4 to 7 add the glyphs to the clip; 1 and 5 stroke them *)
        match codes_of two lit with
        | Some codes => Some {| v_ctm := v_ctm z; v_clips := v_clips z ++ (if (4 <=? mode)%Z then [Glyphs (v_ctm z) p codes] else []); v_stack := v_stack z; v_cur := None; v_start := v_start z; v_path := v_path z;
                                v_W := v_W z; v_done := v_done z ++ (if (mode =? 5)%Z || (mode =? 1)%Z then [Stroked (v_clips z) (v_ctm z) p codes] else []) |}
        | None => None
        end
    | _, _ => None
    end.
  Fixpoint vrun (l : list cop) (z : vstate) : option vstate := match l with [] => Some z | o :: t => match vstep o z with Some z' => vrun t z' | None => None end end.
  Definition page0 : vstate := {| v_ctm := id_mat; v_clips := []; v_stack := []; v_cur := None; v_start := (0, 0); v_path := []; v_W := false; v_done := [] |}.
End Viewer.

(** ** Drawings *)
Inductive shape :=
| ARect (x y w h : R) | AText (x y : R) (codes : list Z) | ARound (x y w h rTL rTR rBR rBL : R) | AEllipse (x y rx ry : R) | APoly (l : list point).
Inductive fig :=
| FLine (a b : point) | FRect (x y w h : R) (style : bytes) | FPoly (l : list point) (style : bytes)
| FLinear (x y w h : R) (c1 c2 : Z * Z * Z) (x1 y1 x2 y2 : R)
| FRadial (x y w h : R) (c1 c2 : Z * Z * Z) (x1 y1 x2 y2 r : R)
| FClip (s : shape) (outline : bool) (body : list fig)      (* ClipXxx() ... ClipEnd() *)
| FTrans (ms : list matrix) (body : list fig).              (* TransformBegin() Transform()* ... TransformEnd() *)

Section Meaning.
  Variables (k H : R).                       (* points per unit, page height *)
  Variable how : bytes -> bytes.             (* the painting operator for a style *)
  Definition pt (x y : R) : point := (x * k, (H - y) * k).
  Definition kappa : R := 4 / 3 * (sqrt 2 - 1).
  Fixpoint joined (p : point) (l : list point) : list seg := match l with [] => [] | q :: t => Straight p q :: joined q t end.
  (** the outline of a shape: from corner to corner; a quarter of an ellipse is one
      curve; rounded corners with radius 0 are left out *)
  Definition box (x y w h : R) : list seg :=
    [Straight (pt x y) (pt (x + w) y); Straight (pt (x + w) y) (pt (x + w) (y + h)); Straight (pt (x + w) (y + h)) (pt x (y + h)); Straight (pt x (y + h)) (pt x y)].
  Definition corner (r : R) (s : seg) : list seg := if Req_EM_T r 0 then [] else [s].
  Definition outline (s : shape) : list seg :=
    match s with
    | ARect x y w h => box x y w h
    | AEllipse x y rx ry =>
        let lx := kappa * rx in let ly := kappa * ry in
        [Bez (pt (x + rx) y) (pt (x + rx) (y - ly)) (pt (x + lx) (y - ry)) (pt x (y - ry));
         Bez (pt x (y - ry)) (pt (x - lx) (y - ry)) (pt (x - rx) (y - ly)) (pt (x - rx) y);
         Bez (pt (x - rx) y) (pt (x - rx) (y + ly)) (pt (x - lx) (y + ry)) (pt x (y + ry));
         Bez (pt x (y + ry)) (pt (x + lx) (y + ry)) (pt (x + rx) (y + ly)) (pt (x + rx) y)]
    | ARound x y w h tl tr br bl =>
        let r := x + w in let b := y + h in let q t := t - kappa * t in
        [Straight (pt (x + tl) y) (pt (r - tr) y)] ++ corner tr (Bez (pt (r - tr) y) (pt (r - q tr) y) (pt r (y + q tr)) (pt r (y + tr))) ++
        [Straight (pt r (y + tr)) (pt r (b - br))] ++ corner br (Bez (pt r (b - br)) (pt r (b - q br)) (pt (r - q br) b) (pt (r - br) b)) ++
        [Straight (pt (r - br) b) (pt (x + bl) b)] ++ corner bl (Bez (pt (x + bl) b) (pt (x + q bl) b) (pt x (b - q bl)) (pt x (b - bl))) ++
        [Straight (pt x (b - bl)) (pt x (y + tl))] ++ corner tl (Bez (pt x (y + tl)) (pt x (y + q tl)) (pt (x + q tl) y) (pt (x + tl) y))
    | APoly [] => []
    | APoly (p :: l) => joined (pt (fst p) (snd p)) (map (fun q => pt (fst q) (snd q)) (l ++ [p]))
    | AText _ _ _ => []
    end.
  Definition mask_of (m : matrix) (s : shape) : mask :=
    match s with AText x y codes => Glyphs m (pt x y) codes | _ => Inside m (outline s) end.
  Definition border (c : list mask) (m : matrix) (s : shape) : event :=
    match s with AText x y codes => Stroked c m (pt x y) codes | _ => Painted c m (bs "S") (outline s) end.

  (** a gradient over the rectangle: the unit square, lower left corner (0, 0), is
      stretched over the rectangle *)
  Definition unit_to (x y w h : R) : matrix := (w * k, 0, 0, h * k, fst (pt x (y + h)), snd (pt x (y + h))).

  (** What a drawing shows, within the clips [c] and under the matrix [m].  Gradients
      are numbered from [j]; the second result is the next number.  [shown] is the
      matrix as the file gives it. *)
  Variable shown : matrix -> matrix.
  Fixpoint sees (c : list mask) (m : matrix) (j : Z) (f : fig) : list event * Z :=
    let fix all c m j l := match l with [] => ([], j) | f :: t => let '(e, j1) := sees c m j f in let '(e', j2) := all c m j1 t in (e ++ e', j2) end in
    match f with
    | FLine a b => ([Painted c m (bs "S") [Straight (pt (fst a) (snd a)) (pt (fst b) (snd b))]], j)
    | FRect x y w h style => ([Painted c m (how style) (box x y w h)], j)
    | FPoly l style => (if (3 <=? List.length l)%nat then [Painted c m (how style) (outline (APoly l))] else [], j)
    | FLinear x y w h _ _ _ _ _ _ | FRadial x y w h _ _ _ _ _ _ _ => ([Shaded (c ++ [Inside m (box x y w h)]) (mat_then (unit_to x y w h) m) j], (j + 1)%Z)
    | FClip s o body => let '(e, j1) := all (c ++ [mask_of m s]) m j body in ((if o then [border c m s] else []) ++ e, j1)
    | FTrans ms body => all c (fold_left (fun m t => mat_then (shown t) m) ms m) j body
    end.
  Definition sees_all (c : list mask) (m : matrix) (j : Z) (l : list fig) : list event * Z :=
    (fix all c m j l := match l with [] => ([], j) | f :: t => let '(e, j1) := sees c m j f in let '(e', j2) := all c m j1 t in (e ++ e', j2) end) c m j l.
End Meaning.

(** the gradients of a drawing, in order: kind, colors, coordinates *)
Definition grad_spec : Type := (Z * (Z * Z * Z) * (Z * Z * Z) * (R * R * R * R * R))%type.
Fixpoint gradients (f : fig) : list grad_spec :=
  match f with
  | FLinear _ _ _ _ c1 c2 x1 y1 x2 y2 => [(2%Z, c1, c2, (x1, y1, x2, y2, 0))]
  | FRadial _ _ _ _ c1 c2 x1 y1 x2 y2 r => [(3%Z, c1, c2, (x1, y1, x2, y2, r))]
  | FClip _ _ body | FTrans _ body => flat_map gradients body
  | _ => []
  end.

(** ** Nearness: printed numbers are rounded *)
Definition near (e : R) (p q : point) : Prop := Rabs (fst p - fst q) <= e /\ Rabs (snd p - snd q) <= e.
Definition seg_near (e : R) (s t : seg) : Prop :=
  match s, t with
  | Straight a b, Straight a' b' => near e a a' /\ near e b b'
  | Bez a c d b, Bez a' c' d' b' => near e a a' /\ near e c c' /\ near e d d' /\ near e b b'
  | _, _ => False
  end.
Definition mask_near (e : R) (x y : mask) : Prop :=
  match x, y with
  | Inside m l, Inside m' l' => m = m' /\ Forall2 (seg_near e) l l'
  | Glyphs m p c, Glyphs m' p' c' => m = m' /\ near e p p' /\ c = c'
  | _, _ => False
  end.
(** the same kind of event with near coordinates; for a shading, the unit square
    goes to near places *)
Definition event_near (e : R) (x y : event) : Prop :=
  match x, y with
  | Painted c m how l, Painted c' m' how' l' => Forall2 (mask_near e) c c' /\ m = m' /\ how = how' /\ Forall2 (seg_near e) l l'
  | Stroked c m p t, Stroked c' m' p' t' => Forall2 (mask_near e) c c' /\ m = m' /\ near e p p' /\ t = t'
  | Shaded c m j, Shaded c' m' j' => Forall2 (mask_near e) c c' /\ j = j' /\
      exists u u' outer, m = mat_then u outer /\ m' = mat_then u' outer /\ forall a b, 0 <= a <= 1 -> 0 <= b <= 1 -> near e (app_mat u (a, b)) (app_mat u' (a, b))
  | _, _ => False
  end.
