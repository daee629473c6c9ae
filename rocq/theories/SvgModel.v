(** svgbasic.go and svgwrite.go.  strconv.ParseFloat is a parameter; the XML
    around the paths is not modelled. *)
From Verif Require Import Base SvgSpec.
From Coq Require Import String.
Open Scope Z_scope.

Section Svg.
  Variable num : Type.
  Variables (add mul : num -> num -> num) (zero : num).
  Variable read : bytes -> option num.

  (** svgbasic.go:29-39: the replacer; all its patterns are single bytes *)
  Definition spaced (c : Z) : bytes :=
    if c =? 44 then [32] else if existsb (Z.eqb c) (bs "LlCcMmHhVvQqZz") then [32; c; 32] else [c].
  (** strings.Fields; bytes above 127 are taken not to be white space *)
  Definition white (c : Z) : bool := existsb (Z.eqb c) [9; 10; 11; 12; 13; 32].
  Fixpoint fields (s cur : bytes) : list bytes :=
    match s with
    | [] => match cur with [] => [] | _ => [rev cur] end
    | c :: t => if white c then match cur with [] => fields t [] | _ => rev cur :: fields t [] end else fields t (c :: cur)
    end.

  (** svgbasic.go:42-45: a segment; Arg is an array of six *)
  Record seg := mk_seg { s_cmd : Z; s_arg : list num }.
  Definition arg (l : list num) (i : nat) : num := nth i l zero.
  Fixpoint upd (l : list num) (i : nat) (v : num) : list num :=
    match l, i with [], _ => [] | _ :: t, O => v :: t | x :: t, S k => x :: upd t k v end.
  Definition zeros : list num := repeat zero 6.

  (** svgbasic.go:47-111 [absolutizePath] *)
  Definition adjust (l : list num) (pos : nat) (x y : num) : list num :=
    let l := upd l pos (add (arg l pos) x) in upd l (S pos) (add (arg l (S pos)) y).
  Definition abs_step (first : bool) (x y : num) (s : seg) : seg * (num * num) :=
    let a := s_arg s in
    let c := if first && (s_cmd s =? 109) then 77 else s_cmd s in
    if c =? 77 then (mk_seg c a, (arg a 0, arg a 1))
    else if c =? 109 then let b := adjust a 0 x y in (mk_seg 77 b, (arg b 0, arg b 1))
    else if c =? 76 then (mk_seg c a, (arg a 0, arg a 1))
    else if c =? 108 then let b := adjust a 0 x y in (mk_seg 76 b, (arg b 0, arg b 1))
    else if c =? 67 then (mk_seg c a, (arg a 4, arg a 5))
    else if c =? 99 then let b := adjust (adjust (adjust a 0 x y) 2 x y) 4 x y in (mk_seg 67 b, (arg b 4, arg b 5))
    else if c =? 81 then (mk_seg c a, (arg a 2, arg a 3))
    else if c =? 113 then let b := adjust (adjust a 0 x y) 2 x y in (mk_seg 81 b, (arg b 2, arg b 3))
    else if c =? 72 then (mk_seg c a, (arg a 0, y))
    else if c =? 104 then (mk_seg 72 (upd a 0 (add (arg a 0) x)), (add x (arg a 0), y))
    else if c =? 86 then (mk_seg c a, (x, arg a 0))
    else if c =? 118 then (mk_seg 86 (upd a 0 (add (arg a 0) y)), (x, add y (arg a 0)))
    else if c =? 122 then (mk_seg 90 a, (x, y))
    else (mk_seg c a, (x, y)).
  Fixpoint abs_loop (first : bool) (x y : num) (l : list seg) : list seg :=
    match l with [] => [] | s :: t => let '(s', (x', y')) := abs_step first x y s in s' :: abs_loop false x' y' t end.
  Definition absolutize (l : list seg) : list seg := abs_loop true zero zero l.

  (** svgbasic.go:113-190 [pathParse] *)
  Record pst := mk_pst { p_cmd : Z; p_arg : list num; p_j : nat; p_count : nat; p_prev : nat; p_segs : list seg }.
  Definition setup (n : nat) (s : pst) : pst := mk_pst (p_cmd s) zeros 0 n n (p_segs s).
  Definition with_cmd (c : Z) (s : pst) : pst := mk_pst c (p_arg s) (p_j s) (p_count s) (p_prev s) (p_segs s).
  Definition append_seg (s : pst) : pst := mk_pst (p_cmd s) (p_arg s) (p_j s) (p_count s) (p_prev s) (p_segs s ++ [mk_seg (p_cmd s) (p_arg s)]).
  (** one round of the loop; [None] is an error.  Words are not empty, and an
      index beyond the six arguments is not reached: setup never asks for more. *)
  Definition parse_word (first : bool) (w : bytes) (s : pst) : option pst :=
    let c := hd 0 w in
    let cont := (p_count s =? 0)%nat && ((c =? 45) || ((48 <=? c) && (c <=? 57))) in
    if cont && first then None else
    let s := if cont then
               let s := setup (p_prev s) s in
               if p_cmd s =? 77 then with_cmd 76 s else if p_cmd s =? 109 then with_cmd 108 s else s
             else s in
    if (p_count s =? 0)%nat then
      let s := with_cmd c s in
      if (c =? 77) || (c =? 109) then Some (setup 2 s)
      else if (c =? 67) || (c =? 99) then Some (setup 6 s)
      else if (c =? 72) || (c =? 104) then Some (setup 1 s)
      else if (c =? 76) || (c =? 108) then Some (setup 2 s)
      else if (c =? 81) || (c =? 113) then Some (setup 4 s)
      else if (c =? 86) || (c =? 118) then Some (setup 1 s)
      else if (c =? 90) || (c =? 122) then Some (append_seg s)
      else None
    else
      match read w with
      | None => None
      | Some v =>
          let s := mk_pst (p_cmd s) (upd (p_arg s) (p_j s) v) (S (p_j s)) (p_count s - 1) (p_prev s) (p_segs s) in
          Some (if (p_count s =? 0)%nat then append_seg s else s)
      end.
  Fixpoint parse_loop (first : bool) (ws : list bytes) (s : pst) : option pst :=
    match ws with [] => Some s | w :: t => match parse_word first w s with None => None | Some s' => parse_loop false t s' end end.
  Definition path_parse (text : bytes) : option (list seg) :=
    match parse_loop true (fields (flat_map spaced text) []) (mk_pst 0 zeros 0 0 0 []) with
    | None => None
    | Some s => if (p_count s =? 0)%nat then Some (absolutize (p_segs s)) else None
    end.

  (** svgwrite.go:26-85 [SVGBasicWrite]: the drawing calls.  [None] is the error for
      an unknown command.  The calls are those of Line, CurveCubic and Curve. *)
  Inductive draw := DLine (x1 y1 x2 y2 : num) | DCubic (x0 y0 cx0 cy0 x1 y1 cx1 cy1 : num) | DCurve (x0 y0 cx cy x1 y1 : num).
  Variables (ox oy scale : num).
  Definition xval (a : list num) (i : nat) : num := add ox (mul scale (arg a i)).
  Definition yval (a : list num) (i : nat) : num := add oy (mul scale (arg a i)).
  Record wst := mk_wst { w_x : num; w_y : num; w_sx : num; w_sy : num }.
  Definition write_seg (s : seg) (w : wst) : option (list draw * wst) :=
    let a := s_arg s in let x := w_x w in let y := w_y w in
    let at_ nx ny := mk_wst nx ny (w_sx w) (w_sy w) in
    if s_cmd s =? 77 then let nx := xval a 0 in let ny := yval a 1 in Some ([], mk_wst nx ny nx ny)
    else if s_cmd s =? 76 then let nx := xval a 0 in let ny := yval a 1 in Some ([DLine x y nx ny], at_ nx ny)
    else if s_cmd s =? 67 then
      let nx := xval a 4 in let ny := yval a 5 in
      Some ([DCubic x y (xval a 0) (yval a 1) nx ny (xval a 2) (yval a 3)], at_ nx ny)
    else if s_cmd s =? 81 then let nx := xval a 2 in let ny := yval a 3 in Some ([DCurve x y (xval a 0) (yval a 1) nx ny], at_ nx ny)
    else if s_cmd s =? 72 then let nx := xval a 0 in Some ([DLine x y nx y], at_ nx y)
    else if s_cmd s =? 86 then let ny := yval a 0 in Some ([DLine x y x ny], at_ x ny)
    else if s_cmd s =? 90 then Some ([DLine x y (w_sx w) (w_sy w)], at_ (w_sx w) (w_sy w))
    else None.
  Fixpoint write_path (l : list seg) (w : wst) : option (list draw * wst) :=
    match l with
    | [] => Some ([], w)
    | s :: t => match write_seg s w with None => None | Some (d, w') => option_map (fun r => (d ++ fst r, snd r)) (write_path t w') end
    end.
  Fixpoint write_paths (l : list (list seg)) (w : wst) : option (list draw) :=
    match l with
    | [] => Some []
    | p :: t => match write_path p w with None => None | Some (d, w') => option_map (app d) (write_paths t w') end
    end.
  Definition svg_write (paths : list (list seg)) : option (list draw) := write_paths paths (mk_wst zero zero zero zero).
End Svg.
