(** Specification of greedy line filling, independent of the code.

    [t] is the text still to be set, [wd c] the width of character c.  A line
    is closed by a newline, or when the next character would exceed [wmax]: then
    the break is taken at the last separator seen on the line (which is
    consumed), or, when the line has no separator, before the overflowing
    character -- after it, if it is the first of the line. *)
From Verif Require Import Base.

Definition width (wd : Z -> Z) (p : list Z) : Z := fold_right (fun c a => wd c + a) 0 p.

(** every non-empty prefix of p is within the limit *)
Definition fits (wd : Z -> Z) (wmax : Z) (p : list Z) : Prop :=
  forall a b, p = a ++ b -> a <> [] -> width wd a <= wmax.

Definition no_nl (p : list Z) : Prop := ~ In 10 p.
Definition no_sep (sep : Z -> bool) (p : list Z) : Prop := Forall (fun c => sep c = false) p.

Inductive greedy (sep : Z -> bool) (wd : Z -> Z) (wmax : Z) : list Z -> list (list Z) -> list Z -> Prop :=
(** the rest fits: it is the last, unclosed line *)
| g_last t : no_nl t -> fits wd wmax t -> greedy sep wd wmax t [] t
(** explicit newline *)
| g_newline line rest ls z :
    no_nl line -> fits wd wmax line -> greedy sep wd wmax rest ls z ->
    greedy sep wd wmax (line ++ 10 :: rest) (line :: ls) z
(** overflow, break at the last separator *)
| g_sep line c word rest ls z :
    sep c = true -> no_sep sep word -> no_nl (line ++ c :: word) ->
    fits wd wmax (removelast (line ++ c :: word)) -> wmax < width wd (line ++ c :: word) ->
    greedy sep wd wmax (word ++ rest) ls z ->
    greedy sep wd wmax (line ++ c :: word ++ rest) (line :: ls) z
(** overflow inside a word that does not start the line alone *)
| g_word line d rest ls z :
    line <> [] -> no_sep sep (line ++ [d]) -> no_nl (line ++ [d]) ->
    fits wd wmax line -> wmax < width wd (line ++ [d]) ->
    greedy sep wd wmax (d :: rest) ls z ->
    greedy sep wd wmax (line ++ d :: rest) (line :: ls) z
(** a single character wider than the line *)
| g_char d rest ls z :
    sep d = false -> d <> 10 -> wmax < wd d ->
    greedy sep wd wmax rest ls z ->
    greedy sep wd wmax (d :: rest) ([d] :: ls) z.

(** Reassembly: the text is the lines interleaved with the break characters:
    [Some c] a consumed character, [None] a break inside a word. *)
Fixpoint reassemble (ls : list (list Z * option Z)) (z : list Z) : list Z :=
  match ls with
  | [] => z
  | (line, Some c) :: ls' => line ++ c :: reassemble ls' z
  | (line, None) :: ls' => line ++ reassemble ls' z
  end.

(** Text without its carriage returns and without its trailing newlines. *)
Definition is_body (txt s : list Z) : Prop :=
  exists k, filter (fun c => negb (c =? 13)) txt = s ++ repeat 10 k /\ (forall p, s <> p ++ [10]).

(** No loss: the lines, in order, interleaved with the dropped break characters,
    are the text [s]; a dropped character is a newline or satisfies [sep].  A
    last line that is empty may be absent from the list. *)
Definition no_loss (sep : Z -> bool) (s : list Z) (lines : list (list Z)) : Prop :=
  exists ls z brk, (lines = ls ++ [z] \/ (lines = ls /\ z = []))
    /\ List.length brk = List.length ls
    /\ s = reassemble (combine ls brk) z
    /\ Forall (fun b => match b with Some c => c = 10 \/ sep c = true | None => True end) brk.
