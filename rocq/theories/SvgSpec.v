(** SVG paths (SVG 1.1, chapter 8) for the commands supported: what a path draws. *)
From Verif Require Import Base.
From Coq Require Import String.
Open Scope Z_scope.

Section Svg.
  Variable num : Type.
  Variable add : num -> num -> num.
  Variable zero : num.
  Definition pt : Type := num * num.

  (** A command with its arguments; [rel] is a small letter. *)
  Inductive cmd :=
  | Move (rel : bool) (p : pt) | LineTo (rel : bool) (p : pt) | Horiz (rel : bool) (x : num) | Vert (rel : bool) (y : num)
  | Cubic (rel : bool) (c0 c1 p : pt) | Quad (rel : bool) (c p : pt) | Close.
  (** What is drawn. *)
  Inductive shape :=
  | SLine (a b : pt) | SCubic (a c0 c1 b : pt) | SQuad (a c b : pt).

  (** a relative point is counted from the current point *)
  Definition from (rel : bool) (cur p : pt) : pt := if rel then (add (fst p) (fst cur), add (snd p) (snd cur)) else p.
  (** [cur] is the current point and [start] the first point of the subpath *)
  Fixpoint draws (cur start : pt) (p : list cmd) : list shape :=
    match p with
    | [] => []
    | Move r q :: t => let q := from r cur q in draws q q t
    | LineTo r q :: t => let q := from r cur q in SLine cur q :: draws q start t
    | Horiz r x :: t => let q := (if r then add x (fst cur) else x, snd cur) in SLine cur q :: draws q start t
    | Vert r y :: t => let q := (fst cur, if r then add y (snd cur) else y) in SLine cur q :: draws q start t
    | Cubic r c0 c1 q :: t => let q' := from r cur q in SCubic cur (from r cur c0) (from r cur c1) q' :: draws q' start t
    | Quad r c q :: t => let q' := from r cur q in SQuad cur (from r cur c) q' :: draws q' start t
    | Close :: t => SLine cur start :: draws start start t
    end.
  (** a path starts at the origin; a relative moveto that comes first is absolute *)
  Definition path_draws (p : list cmd) : list shape :=
    match p with Move true q :: t => draws (zero, zero) (zero, zero) (Move false q :: t) | _ => draws (zero, zero) (zero, zero) p end.
  (** a shape moved by a map of the plane *)
  Definition moved (f : pt -> pt) (s : shape) : shape :=
    match s with SLine a b => SLine (f a) (f b) | SCubic a c0 c1 b => SCubic (f a) (f c0) (f c1) (f b) | SQuad a c b => SQuad (f a) (f c) (f b) end.

  (** The paths for which the reader below is right: after a path is closed, no
      relative command comes before an absolute one that gives a full point. *)
  Fixpoint tame (stale : bool) (p : list cmd) : Prop :=
    match p with
    | [] => True
    | (Move r _ | LineTo r _ | Cubic r _ _ _ | Quad r _ _) :: t => (stale = true -> r = false) /\ tame false t
    | (Horiz r _ | Vert r _) :: t => (stale = true -> r = false) /\ tame stale t
    | Close :: t => tame true t
    end.
  (** all commands absolute *)
  Definition absolute (c : cmd) : Prop :=
    match c with Move r _ | LineTo r _ | Horiz r _ | Vert r _ | Cubic r _ _ _ | Quad r _ _ => r = false | Close => True end.
End Svg.
Arguments Move {num}. Arguments LineTo {num}. Arguments Horiz {num}. Arguments Vert {num}. Arguments Cubic {num}. Arguments Quad {num}. Arguments Close {num}.
Arguments draws {num}. Arguments path_draws {num}. Arguments moved {num}. Arguments tame {num}. Arguments absolute {num}. Arguments from {num}.
Arguments SLine {num}. Arguments SCubic {num}. Arguments SQuad {num}.

(** ** The text of a path *)
(** Items: command letters and number words. *)
Inductive item := Letter (c : Z) | Word (w : bytes).
Definition is_letter (c : Z) : bool := existsb (Z.eqb c) (bs "LlCcMmHhVvQqZz").
(** white space and commas separate *)
Definition is_sep (c : Z) : bool := existsb (Z.eqb c) [9; 10; 11; 12; 13; 32; 44].
(** a word is not empty and holds neither letters nor separators; it ends before
    a separator, a letter or the end *)
Definition word_ok (w : bytes) : Prop := w <> [] /\ Forall (fun c => is_letter c = false /\ is_sep c = false) w.
Definition ends_word (s : bytes) : Prop := match s with [] => True | c :: _ => is_letter c = true \/ is_sep c = true end.
Inductive spelled : list item -> bytes -> Prop :=
| sp_end : spelled [] []
| sp_sep c l s : is_sep c = true -> spelled l s -> spelled l (c :: s)
| sp_letter c l s : is_letter c = true -> spelled l s -> spelled (Letter c :: l) (c :: s)
| sp_word w l s : word_ok w -> ends_word s -> spelled l s -> spelled (Word w :: l) (w ++ s).

(** A command written with its number words; a command may be followed by further
    groups of arguments, for which a moveto counts as a lineto. *)
Section Written.
  Variable num : Type.
  Variable read : bytes -> option num.       (* the value of a number word *)
  Definition numbers (ws : list bytes) (vs : list num) : Prop := map read ws = map Some vs.
  (** the words of a group of arguments, for the letter of a command *)
  Inductive group : Z -> list bytes -> cmd num -> Prop :=
  | g_move rel w0 w1 x y : numbers [w0; w1] [x; y] -> group (if rel : bool then 109 else 77) [w0; w1] (Move rel (x, y))
  | g_line rel w0 w1 x y : numbers [w0; w1] [x; y] -> group (if rel : bool then 108 else 76) [w0; w1] (LineTo rel (x, y))
  | g_horiz rel w x : numbers [w] [x] -> group (if rel : bool then 104 else 72) [w] (Horiz rel x)
  | g_vert rel w y : numbers [w] [y] -> group (if rel : bool then 118 else 86) [w] (Vert rel y)
  | g_cubic rel w0 w1 w2 w3 w4 w5 a b c d e f : numbers [w0; w1; w2; w3; w4; w5] [a; b; c; d; e; f] ->
      group (if rel : bool then 99 else 67) [w0; w1; w2; w3; w4; w5] (Cubic rel (a, b) (c, d) (e, f))
  | g_quad rel w0 w1 w2 w3 a b c d : numbers [w0; w1; w2; w3] [a; b; c; d] -> group (if rel : bool then 113 else 81) [w0; w1; w2; w3] (Quad rel (a, b) (c, d)).
  Definition again (c : Z) : Z := if c =? 77 then 76 else if c =? 109 then 108 else c.
  (** the first word of a further group begins with a digit or a minus sign *)
  Definition plain_start (ws : list bytes) : Prop := match ws with (c :: _) :: _ => c = 45 \/ is_digit c = true | _ => False end.
  Inductive more : Z -> list item -> list (cmd num) -> list item -> Prop :=
  | more_done c l : more c l [] l
  | more_group c ws x l cs l' : group c ws x -> plain_start ws -> more c l cs l' -> more c (map Word ws ++ l) (x :: cs) l'.
  Inductive path_items : list item -> list (cmd num) -> Prop :=
  | pi_end : path_items [] []
  | pi_close c l cs : c = 90 \/ c = 122 -> path_items l cs -> path_items (Letter c :: l) (Close :: cs)
  | pi_cmd c ws x l cs l' cs' : group c ws x -> more (again c) l cs l' -> path_items l' cs' ->
      path_items (Letter c :: map Word ws ++ l) (x :: cs ++ cs').
End Written.
