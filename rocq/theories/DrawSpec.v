(** Paths in PDF content streams (ISO 32000-1, 8.4 and 8.5): which operators draw
    what, over the real numbers. *)
From Coq Require Import String.
From Coq Require Import Reals Lra.
From Verif Require Import Base.
Local Open Scope R_scope.

Definition point : Type := R * R.
Inductive op :=
| Om (p : point) | Ol (p : point) | Oc (c1 c2 p : point) | Ov (c2 p : point) | Oh | Ore (p : point) (w h : R)
| Oq | OQ | Ocm (a b c d e f : R) | Opaint (how : bytes).
Inductive seg := Straight (a b : point) | Bez (a c1 c2 b : point).
Definition first_of (s : seg) : point := match s with Straight a _ | Bez a _ _ _ => a end.
Definition last_of (s : seg) : point := match s with Straight _ b | Bez _ _ _ b => b end.
(** the point of a cubic Bezier curve at t *)
Definition bez1 (a c1 c2 b t : R) : R := (1 - t) * (1 - t) * (1 - t) * a + 3 * t * (1 - t) * (1 - t) * c1 + 3 * t * t * (1 - t) * c2 + t * t * t * b.
Definition bez (a c1 c2 b : point) (t : R) : point := (bez1 (fst a) (fst c1) (fst c2) (fst b) t, bez1 (snd a) (snd c1) (snd c2) (snd b) t).
(** the point of a quadratic Bezier curve at t *)
Definition quad1 (a c b t : R) : R := (1 - t) * (1 - t) * a + 2 * t * (1 - t) * c + t * t * b.
Definition quad (a c b : point) (t : R) : point := (quad1 (fst a) (fst c) (fst b) t, quad1 (snd a) (snd c) (snd b) t).

(** A matrix maps (x, y) to (a x + c y + e, b x + d y + f). *)
Definition matrix : Type := (R * R * R * R * R * R)%type.
Definition app_mat (m : matrix) (p : point) : point := let '(a, b, c, d, e, f) := m in (a * fst p + c * snd p + e, b * fst p + d * snd p + f).
Definition id_mat : matrix := (1, 0, 0, 1, 0, 0).
(** [mat_then m n] first maps by m, then by n *)
Definition mat_then (m n : matrix) : matrix :=
  let '(a, b, c, d, e, f) := m in let '(a', b', c', d', e', f') := n in
  (a * a' + b * c', a * b' + b * d', c * a' + d * c', c * b' + d * d', e * a' + f * c' + e', e * b' + f * d' + f').
(** [g_cur] is the current point, if a path is being built, [g_start] the first point
    of its last part; [g_done] is what has been painted *)
Record gstate := { g_ctm : matrix; g_stack : list matrix; g_cur : option point; g_start : point; g_path : list seg; g_done : list (bytes * list seg) }.
Definition g_init : gstate := {| g_ctm := id_mat; g_stack := []; g_cur := None; g_start := (0, 0); g_path := []; g_done := [] |}.
Definition add_seg (g : gstate) (s : seg) (start : point) : gstate :=
  {| g_ctm := g_ctm g; g_stack := g_stack g; g_cur := Some (last_of s); g_start := start; g_path := g_path g ++ [s]; g_done := g_done g |}.
(** [None]: the operator is not allowed here *)
Definition gstep (o : op) (g : gstate) : option gstate :=
  let m := app_mat (g_ctm g) in
  match o, g_cur g with
  | Om p, _ => Some {| g_ctm := g_ctm g; g_stack := g_stack g; g_cur := Some (m p); g_start := m p; g_path := g_path g; g_done := g_done g |}
  | Ol p, Some c => Some (add_seg g (Straight c (m p)) (g_start g))
  | Oc c1 c2 p, Some c => Some (add_seg g (Bez c (m c1) (m c2) (m p)) (g_start g))
  | Ov c2 p, Some c => Some (add_seg g (Bez c c (m c2) (m p)) (g_start g))
  | Oh, Some c => Some (add_seg g (Straight c (g_start g)) (g_start g))
  | Ore p w h, _ =>
      let a := m p in let b := m (fst p + w, snd p) in let c := m (fst p + w, snd p + h) in let d := m (fst p, snd p + h) in
      Some {| g_ctm := g_ctm g; g_stack := g_stack g; g_cur := Some a; g_start := a; g_path := g_path g ++ [Straight a b; Straight b c; Straight c d; Straight d a]; g_done := g_done g |}
  | Oq, None => Some {| g_ctm := g_ctm g; g_stack := g_ctm g :: g_stack g; g_cur := None; g_start := g_start g; g_path := g_path g; g_done := g_done g |}
  | OQ, None => match g_stack g with m :: t => Some {| g_ctm := m; g_stack := t; g_cur := None; g_start := g_start g; g_path := g_path g; g_done := g_done g |} | [] => None end
  | Ocm a b c d e f, None => Some {| g_ctm := mat_then (a, b, c, d, e, f) (g_ctm g); g_stack := g_stack g; g_cur := None; g_start := g_start g; g_path := g_path g; g_done := g_done g |}
  | Opaint how, Some _ => Some {| g_ctm := g_ctm g; g_stack := g_stack g; g_cur := None; g_start := g_start g; g_path := []; g_done := g_done g ++ [(how, g_path g)] |}
  | _, _ => None
  end.
Fixpoint grun (l : list op) (g : gstate) : option gstate := match l with [] => Some g | o :: t => match gstep o g with Some g' => grun t g' | None => None end end.
(** what a list of operators paints *)
Definition paints (l : list op) : option (list (bytes * list seg)) := option_map g_done (grun l g_init).

(** The painting operators for the styles of the documentation (written in upper
    case): outline, filled by the nonzero or the even-odd rule, or both. *)
Definition style_table : list (bytes * bytes) :=
  [([], bs "S"); (bs "D", bs "S"); (bs "F", bs "f"); (bs "F*", bs "f*"); (bs "FD", bs "B"); (bs "DF", bs "B"); (bs "FD*", bs "B*"); (bs "DF*", bs "B*")].
