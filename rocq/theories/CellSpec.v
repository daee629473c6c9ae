(** What a viewer paints for the marks of a cell (ISO 32000-1, 8.5, 9.2-9.4),
    in the coordinates of the caller (origin at the top left corner, y
    downwards, user units), and what a cell is supposed to show.  Independent
    of the code that computes the marks. *)
From Coq Require Import Reals Lra.
From Verif Require Import Base TextSpec LineSpec CellModel.
From Coq Require Import String.
Open Scope Z_scope.

(** the font the viewer uses: composite (two bytes for a character code) or
    simple, glyph widths in thousandths, size in user units *)
Record vfont := { v_two : bool; v_width : Z -> Z; v_size : R }.

(** what is seen: a rectangle, a line, a run of characters from [left] to
    [right] on the line [base]; [col] tells that the text colour was selected
    for it (otherwise the fill colour of the document is in force) *)
Inductive ink :=
| InkBox (left top right bottom : R) (p : paint) (col : bool)
| InkLine (x1 y1 x2 y2 : R)
| InkText (codes : list Z) (left right base : R) (col : bool).

(** the character codes of a string operand *)
Fixpoint two_byte (s : bytes) : option (list Z) :=
  match s with
  | [] => Some []
  | a :: b :: t => option_map (cons (a * 256 + b)) (two_byte t)
  | _ => None
  end.
Definition codes_of (two : bool) (lit : bytes) : option (list Z) :=
  match read_string lit with
  | Some (s, []) => if two then two_byte s else Some s
  | _ => None
  end.
Definition blanks (codes : list Z) : Z := Z.of_nat (List.length (filter (Z.eqb 32) codes)).

Section Viewer.
  Variables (k H : R) (F : vfont).
  Local Open Scope R_scope.

  (** 9.4.4: each glyph advances by its width times the size; word spacing
      (here in points) is added for the single-byte code 32 only *)
  Definition advance (tw : R) (codes : list Z) : R :=
    IZR (width (v_width F) codes) * v_size F / 1000 + (if v_two F then 0 else tw / k * IZR (blanks codes)).

  (** a TJ array: a number moves left by that many thousandths of the size *)
  Fixpoint tj_run (tw : R) (items : list tj) (x : R) : option (list Z * R) :=
    match items with
    | [] => Some ([], x)
    | JStr l :: r =>
        match codes_of (v_two F) l with
        | None => None
        | Some c => match tj_run tw r (x + advance tw c) with
                    | None => None
                    | Some (cs, x') => Some ((c ++ cs)%list, x')
                    end
        end
    | JNum n :: r => tj_run tw r (x - n * v_size F / 1000)
    end.

  Definition ux (X : R) : R := X / k.
  Definition uy (Y : R) : R := H - Y / k.

  (** [col]: the text colour is selected; [tw]: word spacing in force *)
  Fixpoint view (col : bool) (tw : R) (ms : list mark) : option (list ink) :=
    match ms with
    | [] => Some []
    | MRect x y w h p :: r =>
        option_map (cons (InkBox (ux x) (uy y) (ux (x + w)) (uy (y + h)) p col)) (view col tw r)
    | MLine x1 y1 x2 y2 :: r => option_map (cons (InkLine (ux x1) (uy y1) (ux x2) (uy y2))) (view col tw r)
    | MColour :: r => view true tw r
    | MRestore :: r => view false tw r
    | MWordSpace n :: r => view col n r
    | MShow x y l :: r =>
        match codes_of (v_two F) l with
        | None => None
        | Some c => option_map (cons (InkText c (ux x) (ux x + advance tw c) (uy y) col)) (view col tw r)
        end
    | MShowJ x y items :: r =>
        match tj_run 0 items (ux x) with
        | None => None
        | Some (c, x1) => option_map (cons (InkText c (ux x) x1 (uy y) col)) (view col 0 r)
        end
    end.
End Viewer.

(** the frame of a cell with corners (l,t) and (r,b): the background and the
    sides the caller asked for, in either case of the letters *)
Definition mentions (c : Z) (b : bytes) : bool := existsb (fun d => (d =? c) || (d =? c + 32)) b.
Definition wanted_frame (l t r b : R) (border : bytes) (fill : bool) : list ink :=
  if beqb border (bs "1") then [InkBox l t r b (if fill then PBoth else PStroke) false]
  else (if fill then [InkBox l t r b PFill false] else []) ++
       (if mentions 76 border then [InkLine l t l b] else []) ++     (* L *)
       (if mentions 84 border then [InkLine l t r t] else []) ++     (* T *)
       (if mentions 82 border then [InkLine r t r b] else []) ++     (* R *)
       (if mentions 66 border then [InkLine l b r b] else []).       (* B *)

(** where the text has to be: between [x0] and [x1] on the baseline [base], for
    a cell from (l,t) to (r,b) with inner margin [m] and a font of size [fs]
    whose characters reach from 0.8 fs above the baseline to 0.2 fs below it *)
Definition wanted_across (l r m : R) (align : bytes) (x0 x1 : R) : Prop :=
  (In 82 align -> x1 = (r - m)%R) /\
  (~ In 82 align -> In 67 align -> (x0 - l = r - x1)%R) /\
  (~ In 82 align -> ~ In 67 align -> x0 = (l + m)%R).
Definition em_top (fs base : R) : R := (base - 8 / 10 * fs)%R.
Definition em_bottom (fs base : R) : R := (base + 2 / 10 * fs)%R.
Definition wanted_down (t b fs : R) (align : bytes) (base : R) : Prop :=
  (In 84 align -> em_top fs base = t) /\
  (~ In 84 align -> In 66 align -> em_bottom fs base = b) /\
  (~ In 84 align -> ~ In 66 align -> ~ In 65 align -> (em_top fs base - t = b - em_bottom fs base)%R).
(** "A" puts the baseline on the bottom of the cell *)
Definition wanted_baseline (b : R) (align : bytes) (base : R) : Prop :=
  ~ In 84 align -> ~ In 66 align -> In 65 align -> base = b.
