(** Instances of the numbers of ApiModel: IEEE doubles, as SpecFloat of the
    standard library defines them, and the integers, for small examples. *)
From Verif Require Import Base TextModel ApiModel.
From Coq Require Import String SpecFloat.
Local Open Scope string_scope.
Local Open Scope Z_scope.
Local Open Scope list_scope.

(** float64 of an int: exact up to 2^53, rounded beyond *)
Definition f64 (z : Z) : spec_float := binary_normalize 53 1024 z 0 false.

(** IEEE binary64, round to nearest even.  The trigonometric functions and
    %.3f are parameters: no theorem depends on what they return. *)
Definition ieee (cos sin tan : spec_float -> spec_float) (pi : spec_float) (f3 : spec_float -> bytes) : arith :=
  mk_arith spec_float f64 (SFadd 53 1024) (SFsub 53 1024) (SFmul 53 1024) (SFdiv 53 1024) SFopp SFltb SFeqb
    cos sin tan pi f3.

(** the integers, with truncated division, printed in decimal *)
Definition arithZ : arith :=
  mk_arith Z (fun z => z) Z.add Z.sub Z.mul Z.div Z.opp Z.ltb Z.eqb (fun z => z) (fun z => z) (fun z => z) 3
    (fun z => dec z).

(** a library with its core fonts, and an assembly that always succeeds *)
Definition fonts_ex (fam sty : bytes) : fontdef + bytes :=
  inl (mk_fontdef (fam ++ sty) (bs "F" ++ fam ++ sty) false (fun b => 500 * Z.of_nat (List.length b)) 800 (-200)).
Definition asm_ex (A : arith) (s : st A) : option (bytes * option (@error)) :=
  Some (bs "%PDF pages " ++ dec (Z.of_nat (List.length (l_pages (t_life s)) - 1)), None).

(** a document in points with a 200 by 300 page and margins of 10 *)
Definition doc_ex : st arithZ := init (A := arithZ) 1 (bs "P") 200 300 10.

(** the program that makes the calls of a list *)
Fixpoint calls {A} (l : list (call A)) : prog A :=
  match l with [] => Done true | c :: l => Step c (fun _ => calls l) end.
Definition run_ex (l : list (call arithZ)) : option (st arithZ) :=
  option_map snd (run fonts_ex (asm_ex arithZ) 9 (calls l) doc_ex).
(** a view of the state after the calls of a list *)
Definition after {B} (l : list (call arithZ)) (f : st arithZ -> B) : option B := option_map f (run_ex l).
