(** utf8fontfile.go: the metrics of a TrueType font, read when a UTF-8 font is added.

    Floating point numbers come in at four places only, which are parameters: see [fmath]. *)
From Verif Require Import Base DocModel TtfModel CutModel.
From Coq Require Import String.
Open Scope Z_scope.
Local Notation "'do' x <- a ;; b" := (obind a (fun x => b)) (at level 200, x pattern, a at level 100, b at level 200).

(** with scale = 1000.0/float64(em): int(float64(v)*scale), int(math.Round(scale*float64(v))),
    round(scale*float64(v)) of util.go:31-36 [round], and 50 + int(math.Pow(float64(w)/65.0, 2)) *)
Record fmath := { fm_trunc : Z -> Z -> Z; fm_round : Z -> Z -> Z; fm_round' : Z -> Z -> Z; fm_stem : Z -> Z }.

Fixpoint ofold {A S} (g : A -> S -> outcome S) (l : list A) (s : S) : outcome S :=
  match l with
  | [] => Ret s
  | a :: t => do s' <- g a s ;; ofold g t s'
  end.

(** utf8fontfile.go:279-333 [parseNAMETable]: what is read; the names themselves are not used.  [filled]: the
    identifiers whose name is found *)
Fixpoint name_loop (f : bytes) (strings : Z) (k : nat) (p : Z) (filled : list Z) : outcome unit :=
  match k with
  | O => Ret tt
  | S k' =>
      do system <- rd16 f p ;;
      do code <- rd16 f (p + 2) ;;
      do local <- rd16 f (p + 4) ;;
      do id <- rd16 f (p + 6) ;;
      do size <- rd16 f (p + 8) ;;
      do position <- rd16 f (p + 10) ;;
      if negb (existsb (Z.eqb id) [1; 2; 3; 4; 6]) then name_loop f strings k' (p + 12) filled
      else
        let found := (0 <? size) && negb (existsb (Z.eqb id) filled) in
        let filled' := if found then id :: filled else filled in
        let next := if found && (5 <=? Z.of_nat (List.length filled')) then Ret tt else name_loop f strings k' (p + 12) filled' in
        if (system =? 3) && (code =? 1) && (local =? 1033) then
          if negb (size mod 2 =? 0) then Ret tt
          else do _ <- (if size =? 0 then Ret [] else rd f (strings + position) size) ;; next
        else if (system =? 1) && (code =? 0) && (local =? 0) then
          do _ <- rd f (strings + position) size ;; next
        else name_loop f strings k' (p + 12) filled
  end.
Definition parse_name (f : bytes) (dir : list (bytes * desc)) : outcome unit :=
  do name <- seek_table dir "name" ;;
  do format <- rd16 f name ;;
  if negb (format =? 0) then Ret tt
  else
    do count <- rd16 f (name + 2) ;;
    do strings <- rd16 f (name + 4) ;;
    name_loop f (name + strings) (Z.to_nat count) (name + 6) [].

(** utf8fontfile.go:335-353 [parseHEADTable]: units per em and bounding box *)
Definition parse_head (M : fmath) (f : bytes) (dir : list (bytes * desc)) : outcome (Z * (Z * Z * Z * Z)) :=
  do head <- seek_table dir "head" ;;
  do em <- rd16 f (head + 18) ;;
  do xmin <- rdi16 f (head + 36) ;;
  do ymin <- rdi16 f (head + 38) ;;
  do xmax <- rdi16 f (head + 40) ;;
  do ymax <- rdi16 f (head + 42) ;;
  do _ <- rd16 f (head + 50) ;;
  do _ <- rd16 f (head + 52) ;;
  Ret (em, (fm_trunc M em xmin, fm_trunc M em ymin, fm_trunc M em xmax, fm_trunc M em ymax)).

(** utf8fontfile.go:355-378 [parseHHEATable]: number of long metrics, ascent and descent (0 before) *)
Definition parse_hhea (M : fmath) (em : Z) (f : bytes) (dir : list (bytes * desc)) : outcome (Z * Z * Z) :=
  match find_desc dir (bs "hhea") with
  | None => Ret (0, 0, 0)
  | Some d =>
      do ascent <- rdi16 f (t_pos d + 4) ;;
      do descent <- rdi16 f (t_pos d + 6) ;;
      do format <- rd16 f (t_pos d + 32) ;;
      if negb (format =? 0) then Ret (0, fm_trunc M em ascent, fm_trunc M em descent)
      else do count <- rd16 f (t_pos d + 34) ;; Ret (count, fm_trunc M em ascent, fm_trunc M em descent)
  end.

(** utf8fontfile.go:380-425 [parseOS2Table]: weight, ascent, descent, height of capitals, stem; a font with
    restrictions keeps the height of capitals and the stem at 0 *)
Record os2 := { o_weight : Z; o_ascent : Z; o_descent : Z; o_cap : Z; o_stem : Z }.
Definition parse_os2 (M : fmath) (em ymin ymax ascent descent : Z) (f : bytes) (dir : list (bytes * desc)) : outcome os2 :=
  match find_desc dir (bs "OS/2") with
  | None =>
      let ascent := if ascent =? 0 then fm_trunc M em ymax else ascent in
      let descent := if descent =? 0 then fm_trunc M em ymin else descent in
      Ret {| o_weight := 500; o_ascent := ascent; o_descent := descent; o_cap := ascent; o_stem := fm_stem M 500 |}
  | Some d =>
      let p := t_pos d in
      do version <- rd16 f p ;;
      do weight <- rd16 f (p + 4) ;;
      do fstype <- rd16 f (p + 8) ;;
      if (fstype =? 2) || negb (Z.land fstype 768 =? 0) then
        Ret {| o_weight := 0; o_ascent := ascent; o_descent := descent; o_cap := 0; o_stem := 0 |}
      else
        do _ <- rdi16 f (p + 30) ;;
        do sasc <- rdi16 f (p + 68) ;;
        do sdesc <- rdi16 f (p + 70) ;;
        let ascent := if ascent =? 0 then fm_trunc M em sasc else ascent in
        let descent := if descent =? 0 then fm_trunc M em sdesc else descent in
        do cap <- (if 1 <? version then do c <- rdi16 f (p + 88) ;; Ret (fm_trunc M em c) else Ret ascent) ;;
        Ret {| o_weight := weight; o_ascent := ascent; o_descent := descent; o_cap := cap; o_stem := fm_stem M weight |}
  end.

(** utf8fontfile.go:427-447 [parsePOSTTable]: italic angle (readUint16()/65536.0 is an integer division: 0), underline
    position and thickness in font units, flags *)
Definition parse_post (weight : Z) (f : bytes) (dir : list (bytes * desc)) : outcome (Z * Z * Z * Z) :=
  do post <- seek_table dir "post" ;;
  do angle <- rdi16 f (post + 4) ;;
  do low <- rd16 f (post + 6) ;;
  let angle := angle + low / 65536 in
  do up <- rdi16 f (post + 8) ;;
  do ut <- rdi16 f (post + 10) ;;
  do fixed <- rd32 f (post + 12) ;;
  let flags := 4 in
  let flags := if negb (angle =? 0) then Z.lor flags 64 else flags in
  let flags := if 600 <=? weight then Z.lor flags 262144 else flags in
  let flags := if negb (fixed =? 0) then Z.lor flags 1 else flags in
  Ret (angle, up, ut, flags).

(** a, a+1, ..., k of them *)
Fixpoint upto (a : Z) (k : nat) : list Z := match k with O => [] | S k' => a :: upto (a + 1) k' end.
(** utf8fontfile.go:834-886 [parseHMTXTable]: the widths entered so far and their number *)
Record widths := { w_at : Z -> Z; w_count : Z }.
Definition put_width (sc : Z -> Z) (aw char : Z) (st : widths) : outcome widths :=
  if (char =? 0) || (char =? 65535) then Ret st
  else
    let w := sc aw in
    let w := if w =? 0 then 65535 else w in
    if char <? 196608 then
      if char <? 65536 then Ret {| w_at := fun c => if c =? char then w else w_at st c; w_count := w_count st + 1 |} else Panic
    else Ret st.
(** symbolToChar[symbol] *)
Definition chars_of (pairs : list (Z * Z)) (symbol : Z) : list Z := map fst (filter (fun p => snd p =? symbol) pairs).
(** the first loop: arrayWidths, the advance of glyph 0, the widths *)
Definition long_width (sc : Z -> Z) (arr : bytes) (pairs : list (Z * Z)) (symbol : Z) (s : Z * Z * widths) : outcome (Z * Z * widths) :=
  let '(_, dw, st) := s in
  let aw := nth (Z.to_nat (4 * symbol)) arr 0 * 256 + nth (Z.to_nat (4 * symbol + 1)) arr 0 in
  match chars_of pairs symbol with
  | [] => if symbol =? 0 then let aw := if 32768 <=? aw then 0 else aw in Ret (aw, aw, st) else Ret (aw, dw, st)
  | chars =>
      let aw := if 32768 <=? aw then 0 else aw in
      if symbol =? 0 then Ret (aw, aw, st)
      else do st <- ofold (put_width sc aw) chars st ;; Ret (aw, dw, st)
  end.
(** the second loop *)
Definition short_width (sc : Z -> Z) (aw : Z) (pairs : list (Z * Z)) (symbol : Z) (st : widths) : outcome widths :=
  ofold (put_width sc aw) (chars_of pairs symbol) st.
Definition parse_hmtx (sc : Z -> Z) (count num : Z) (pairs : list (Z * Z)) (f : bytes) (dir : list (bytes * desc)) : outcome (Z * list Z) :=
  do start <- seek_table dir "hmtx" ;;
  do arr <- rd f start (count * 4) ;;
  do s <- ofold (long_width sc arr pairs) (range 0 (Z.to_nat count)) (0, 0, {| w_at := fun _ => 0; w_count := 0 |}) ;;
  let '(aw, dw, st) := s in
  do st <- ofold (short_width sc aw pairs) (range count (Z.to_nat (num - count))) st ;;
  Ret (dw, map (fun c => if c =? 0 then w_count st else w_at st c) (upto 0 (Z.to_nat 65536))).

Record metrics := {
  m_bbox : Z * Z * Z * Z; m_ascent : Z; m_descent : Z; m_cap : Z; m_stem : Z; m_angle : Z; m_flags : Z;
  m_up : Z; m_ut : Z; m_missing : Z; m_cw : list Z }.
(** utf8fontfile.go:477-495 [parseTables], and the values taken over in fpdf.go:1671-1768 [addFont] *)
Definition parse_tables (M : fmath) (f : bytes) (dir : list (bytes * desc)) : outcome metrics :=
  do _ <- parse_name f dir ;;
  do h <- parse_head M f dir ;;
  let '(em, (xmin, ymin, xmax, ymax)) := h in
  do h <- parse_hhea M em f dir ;;
  let '(count, ascent, descent) := h in
  do o <- parse_os2 M em ymin ymax ascent descent f dir ;;
  do p <- parse_post (o_weight o) f dir ;;
  let '(angle, up, ut, flags) := p in
  do cm <- cmap_position f dir ;;
  let cm := match cm with Some p => p | None => 0 end in
  do maxp <- seek_table dir "maxp" ;;
  do num <- rd16 f (maxp + 4) ;;
  do pairs <- char_symbols f cm ;;
  do w <- parse_hmtx (fm_round M em) count num pairs f dir ;;
  let '(dw, cw) := w in
  Ret {| m_bbox := (xmin, ymin, xmax, ymax); m_ascent := o_ascent o; m_descent := o_descent o; m_cap := o_cap o; m_stem := o_stem o;
         m_angle := angle; m_flags := flags; m_up := fm_round' M em up; m_ut := fm_round' M em ut;
         m_missing := fm_round' M em dw; m_cw := cw |}.
(** utf8fontfile.go:96-117 [parseFile]; None: the error *)
Definition parse_font (M : fmath) (f : bytes) : outcome (option metrics) :=
  do code <- rd32 f 0 ;;
  if negb ((code =? 65536) || (code =? 1953658213)) then Ret None
  else
    do dir <- read_dir f ;;
    do m <- parse_tables M f dir ;;
    Ret (Some m).
