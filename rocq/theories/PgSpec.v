(** Specification for C82: what page sizes, orientations and boxes a history of calls asks for.  A page is a sheet, turned if it is
    landscape.  Sizes of named papers are those of ISO 216 (in mm) and of the US sheets (in inches). *)
From Coq Require Import Reals.
From Verif Require Import Base Crypto DocModel PgModel.
From Coq Require Import String.
Open Scope Z_scope.
Notation length := List.length.

Section Spec.
  Variable P : pnum.
  (** (landscape, sheet) *)
  Definition request : Type := bool * size P.
  Definition turned (r : request) : N P * N P := if fst r then (ht (snd r), wd (snd r)) else (wd (snd r), ht (snd r)).
  (** an orientation given to AddPageFormat: its first letter counts; without one it is that of the document *)
  Definition landscape (d : request) (o : bytes) : bool := match o with [] => fst d | c :: _ => negb ((c =? 80) || (c =? 112)) end.

  (** ** The pages asked for.  [v_log]: for each box set, the number of pages there were, the current page, the kind and the box *)
  Record view := { v_err : bool; v_pages : list request; v_at : Z; v_log : list (Z * Z * bytes * box P) }.
  Definition start : view := {| v_err := false; v_pages := []; v_at := 0; v_log := [] |}.
  Definition count (v : view) : Z := Z.of_nat (length (v_pages v)).
  Definition add_sheet (r : request) (v : view) : view :=
    if v_err v then v else {| v_err := false; v_pages := v_pages v ++ [r]; v_at := count v + 1; v_log := v_log v |}.
  Definition box_names : list (string * list string) :=
    [("TrimBox", ["trim"; "trimbox"]); ("CropBox", ["crop"; "cropbox"]); ("BleedBox", ["bleed"; "bleedbox"]); ("ArtBox", ["art"; "artbox"])]%string.
  (** t names the kind of box, in any case *)
  Definition names_box (t kind : bytes) : Prop := exists k l n, In (k, l) box_names /\ In n l /\ kind = bs k /\ lower t = bs n.
  Inductive vstep (d : request) (v : view) : pcall P -> view -> Prop :=
  | v_add : vstep d v (AddPage P) (add_sheet d v)
  | v_format o sz : vstep d v (AddPageFormat P o sz) (add_sheet (landscape d o, sz) v)
  | v_break : vstep d v (BreakPage P) (add_sheet (last (v_pages v) d) v)
  | v_setpage q : vstep d v (SetPage P q) {| v_err := v_err v; v_pages := v_pages v; v_at := if (1 <=? q) && (q <=? count v) then q else v_at v; v_log := v_log v |}
  | v_auto m : vstep d v (AutoBreak P m) v
  | v_box t kind b : names_box t kind -> vstep d v (SetPageBox P t b) {| v_err := v_err v; v_pages := v_pages v; v_at := v_at v; v_log := v_log v ++ [(count v, v_at v, kind, b)] |}
  | v_nobox t b : (forall kind, ~ names_box t kind) -> vstep d v (SetPageBox P t b) {| v_err := true; v_pages := v_pages v; v_at := v_at v; v_log := v_log v |}
  | v_error e : vstep d v (SetError P e) {| v_err := true; v_pages := v_pages v; v_at := v_at v; v_log := v_log v |}
  | v_clear : vstep d v (ClearError P) {| v_err := false; v_pages := v_pages v; v_at := v_at v; v_log := v_log v |}.
  Inductive vsteps (d : request) : view -> list (pcall P) -> view -> Prop :=
  | vs_nil v : vsteps d v [] v
  | vs_cons v c v' cs v'' : vstep d v c v' -> vsteps d v' cs v'' -> vsteps d v (c :: cs) v''.
  (** the box of a kind a page has: the last one set before the page was added or while it was the current page *)
  Definition concerns (q : Z) (kind : bytes) (e : Z * Z * bytes * box P) : bool := let '(n, at_, k, _) := e in beqb kind k && ((n <? q) || (at_ =? q)).
  Definition box_asked (q : Z) (kind : bytes) (v : view) : option (box P) := option_map snd (hd_error (rev (filter (concerns q kind) (v_log v)))).
  (** a box in points: its corners *)
  Definition corners (k : N P) (b : box P) : box P :=
    {| bx := n_mul P (bx b) k; by_ := n_mul P (by_ b) k; bw := n_add P (n_mul P (bw b) k) (n_mul P (bx b) k); bh := n_add P (n_mul P (bh b) k) (n_mul P (by_ b) k) |}.
  Definition points (k : N P) (x : N P * N P) : size P := {| wd := n_mul P (fst x) k; ht := n_mul P (snd x) k |}.
End Spec.
Arguments turned {P}. Arguments landscape {P}. Arguments start {P}. Arguments points {P}. Arguments corners {P}. Arguments vsteps {P}. Arguments vstep {P}.
Arguments v_err {P}. Arguments v_pages {P}. Arguments v_at {P}. Arguments v_log {P}. Arguments count {P}. Arguments box_asked {P}. Arguments add_sheet {P}.

(** ** Real numbers *)
Open Scope R_scope.
Definition Rgtb (a b : R) : bool := if Rlt_dec b a then true else false.
Definition Rnum : pnum := {|
  N := R; n_lit := fun a b => IZR a / IZR b; n_mul := Rmult; n_div := Rdiv; n_add := Rplus; n_sub := Rminus;
  n_pos := fun x => Rgtb x 0; n_gt := Rgtb; n_eqb := fun a b => if Req_EM_T a b then true else false |}.
(** the points in a unit *)
Definition unit_named (u : bytes) (k : R) : Prop :=
  (In u [bs "pt"; bs "point"] /\ k = 1) \/ (u = bs "mm" /\ k = 72 / 25.4) \/ (u = bs "cm" /\ k = 72 / 2.54) \/ (In u [bs "in"; bs "inch"] /\ k = 72).
(** papers: ISO 216 in millimetres, others in inches *)
Definition iso_papers : list (string * (R * R)) :=
  [("a1", (594, 841)); ("a2", (420, 594)); ("a3", (297, 420)); ("a4", (210, 297)); ("a5", (148, 210)); ("a6", (105, 148))]%string.
Definition us_papers : list (string * (R * R)) := [("letter", (8.5, 11)); ("legal", (8.5, 14)); ("tabloid", (11, 17))]%string.
(** a sheet, in points, of a named paper: the ISO standard allows 1.5 mm, 0.51 mm is enough here *)
Definition is_paper (name : bytes) (w h : R) : Prop :=
  (exists n a b, In (n, (a, b)) us_papers /\ name = bs n /\ w = a * 72 /\ h = b * 72) \/
  (exists n a b, In (n, (a, b)) iso_papers /\ name = bs n /\ Rabs (w / 72 * 25.4 - a) <= 0.51 /\ Rabs (h / 72 * 25.4 - b) <= 0.51).
