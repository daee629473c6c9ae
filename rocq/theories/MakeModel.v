(** font.go: making a font definition file (MakeFont).

    The file system is a function from names to contents, [None] for a file that is not there or cannot be read; writing is
    taken to work and is given back as the definition and the data compressed into the .z file (encoding/json and
    compress/zlib are not modelled).  [rnd em v] is round(1000.0 / em * v) (util.go:31-36), [scan] is what fmt.Sscanf reads
    with "!%x U+%x %s", [ref] is filepath.Join(filepath.Dir(...), "cp1252.map").  Messages are not modelled, nor are lines
    of more than 64 kB. *)
From Verif Require Import Base TtfSpec CutModel FontModel.
From Coq Require Import String.
Open Scope Z_scope.
Notation length := List.length.
Local Notation "'do' x <- a ;; b" := (obind a (fun x => b)) (at level 200, x pattern, a at level 100, b at level 200).

(** font.go:59-77 (loadMap), as read by bufio.Scanner: lines end with LF, and a CR before it is dropped *)
Definition drop_cr (r : bytes) : bytes := match r with c :: t => if c =? 13 then rev t else rev r | [] => [] end.
Fixpoint lines_from (cur s : bytes) : list bytes :=
  match s with
  | [] => match cur with [] => [] | _ => [drop_cr cur] end
  | c :: s => if c =? 10 then drop_cr cur :: lines_from [] s else lines_from (c :: cur) s
  end.
(** def.go:607-610 [encType]: the name and the character *)
Definition entry : Type := bytes * Z.
Definition notdef : bytes := bs ".notdef".
Fixpoint set_nth {A} (l : list A) (i : nat) (x : A) : list A := match l, i with [], _ => [] | _ :: l, O => x :: l | y :: l, S i => y :: set_nth l i x end.
Fixpoint load_lines (scan : bytes -> option (Z * Z * bytes)) (ls : list bytes) (l : list entry) : outcome (option (list entry)) :=
  match ls with
  | [] => Ret (Some l)
  | t :: ls =>
      match scan t with
      | None => Ret None
      | Some (pos, uv, name) =>
          if pos <? 256 then if pos <? 0 then Panic else load_lines scan ls (set_nth l (Z.to_nat pos) (name, uv)) else Ret None
      end
  end.
(** font.go:49-82 [loadMap] *)
Definition load_map (scan : bytes -> option (Z * Z * bytes)) (file : option bytes) : outcome (option (list entry)) :=
  match file with None => Ret None | Some s => load_lines scan (lines_from [] s) (repeat (notdef, -1) 256) end.

(** def.go:662-697 [FontDescType] *)
Record fdesc := { k_asc : Z; k_desc : Z; k_cap : Z; k_flags : Z; k_box : Z * Z * Z * Z; k_angle : Z; k_stem : Z; k_missing : Z }.
(** def.go:726-738 [fontInfoType]; [n_size1], [n_size2]: the sizes of the segments of a Type1 font *)
Record finfo := { n_data : bytes; n_orig : Z; n_name : bytes; n_bold : bool; n_fixed : bool; n_up : Z; n_ut : Z; n_widths : list Z; n_size1 : Z; n_size2 : Z; n_desc : fdesc }.

(** font.go:123-135 (getInfoFromTrueType): the width of one code *)
Definition code_width (rnd : Z -> Z) (t : ttf) (missing : Z) (e : entry) : outcome Z :=
  if beqb (fst e) notdef then Ret missing
  else match chr (tt_chars t) (snd e mod 65536) with
       | None => Ret missing
       | Some g => match nth_error (tt_widths t) (Z.to_nat g) with Some w => Ret (rnd w) | None => Panic end
       end.
Fixpoint code_widths (f : entry -> outcome Z) (l : list entry) : outcome (list Z) :=
  match l with [] => Ret [] | e :: l => do w <- f e ;; do ws <- code_widths f l ;; Ret (w :: ws) end.
(** font.go:85-139 [getInfoFromTrueType] *)
Definition true_type (rnd : Z -> Z -> Z) (f : bytes) (embed : bool) (enc : list entry) : outcome (option finfo) :=
  do r <- ttf_parse f ;;
  match r with
  | None => Ret None
  | Some t =>
      if embed && negb (tt_embed t) then Ret None else
      let rd := rnd (tt_em t) in
      match tt_widths t with
      | [] => Panic
      | w0 :: _ =>
          do ws <- code_widths (code_width rd t (rd w0)) enc ;;
          let '(x0, y0, x1, y1) := tt_box t in
          Ret (Some {| n_data := if embed then f else []; n_orig := if embed then Z.of_nat (length f) else 0; n_name := tt_name t; n_bold := tt_bold t; n_fixed := tt_fixed t;
                       n_up := rd (tt_up t); n_ut := rd (tt_ut t); n_widths := ws; n_size1 := 0; n_size2 := 0;
                       n_desc := {| k_asc := rd (tt_asc t); k_desc := rd (tt_desc t); k_cap := rd (tt_cap t); k_flags := 0; k_box := (rd x0, rd y0, rd x1, rd y1);
                                    k_angle := tt_angle t; k_stem := 0; k_missing := rd w0 |} |})
      end
  end.

(** font.go:148-165 [segmentRead] at position [p]: the data and the position after it; bytes that are not there stay 0 *)
Definition segment (f : bytes) (p : Z) : option (bytes * Z) :=
  let n := flen f in
  if p + 6 <=? n then
    if byte_at f p =? 128 then
      let size := byte_at f (p + 2) + 256 * byte_at f (p + 3) + 65536 * byte_at f (p + 4) + 16777216 * byte_at f (p + 5) in
      let got := extract f (p + 6) (Z.min size (n - (p + 6))) in
      if (0 <? size) && (n <=? p + 6) then None
      else Some (got ++ repeat 0 (Z.to_nat (size - (n - (p + 6)))), p + 6 + Z.min size (n - (p + 6)))
    else None
  else None.
(** font.go:216 (getInfoFromType1), strings.Fields; white space outside ASCII is not modelled *)
Definition is_space (c : Z) : bool := (c =? 32) || ((9 <=? c) && (c <=? 13)).
Fixpoint fields_from (cur s : bytes) : list bytes :=
  match s with
  | [] => match cur with [] => [] | _ => [rev cur] end
  | c :: s => if is_space c then match cur with [] => fields_from [] s | _ => rev cur :: fields_from [] s end else fields_from (c :: cur) s
  end.
(** strconv.Atoi (font.go:223-254): an optional sign and digits, in the range of int *)
Definition atoi (s : bytes) : option Z :=
  let '(neg, ds) := match s with c :: t => if c =? 45 then (true, t) else if c =? 43 then (false, t) else (false, s) | [] => (false, s) end in
  match read_dec ds with
  | Some (n, []) => let v := if neg then - n else n in if (- 2 ^ 63 <=? v) && (v <? 2 ^ 63) then Some v else None
  | _ => None
  end.
(** font.go:230 (getInfoFromType1), strings.ToLower on ASCII *)
Definition lower (s : bytes) : bytes := map (fun c => if (65 <=? c) && (c <=? 90) then c + 32 else c) s.
(** what is collected from the metric file; the map from names to widths has its last entry first *)
Record afm := { a_widths : list (bytes * Z); a_name : bytes; a_weight : bytes; a_fixed : bool; a_up : Z; a_ut : Z; a_desc : fdesc }.
Definition afm0 : afm := {| a_widths := []; a_name := []; a_weight := []; a_fixed := false; a_up := 0; a_ut := 0;
  a_desc := {| k_asc := 0; k_desc := 0; k_cap := 0; k_flags := 0; k_box := (0, 0, 0, 0); k_angle := 0; k_stem := 0; k_missing := 0 |} |}.
Definition with_desc (a : afm) (d : fdesc) : afm :=
  {| a_widths := a_widths a; a_name := a_name a; a_weight := a_weight a; a_fixed := a_fixed a; a_up := a_up a; a_ut := a_ut a; a_desc := d |}.
Definition fld (l : list bytes) (i : nat) : outcome bytes := match nth_error l i with Some x => Ret x | None => Panic end.
(** font.go:216-259 (getInfoFromType1): one line *)
Definition afm_line (a : afm) (l : list bytes) : outcome (option afm) :=
  match l with
  | key :: v :: _ =>
      let d := a_desc a in
      let num (k : Z -> afm) := match atoi v with Some n => Ret (Some (k n)) | None => Ret None end in
      if beqb key (bs "C") then
        do w <- fld l 4 ;;
        match atoi w with
        | None => Ret None
        | Some n => do name <- fld l 7 ;;
            Ret (Some {| a_widths := (name, n) :: a_widths a; a_name := a_name a; a_weight := a_weight a; a_fixed := a_fixed a; a_up := a_up a; a_ut := a_ut a; a_desc := d |})
        end
      else if beqb key (bs "FontName") then Ret (Some {| a_widths := a_widths a; a_name := v; a_weight := a_weight a; a_fixed := a_fixed a; a_up := a_up a; a_ut := a_ut a; a_desc := d |})
      else if beqb key (bs "Weight") then Ret (Some {| a_widths := a_widths a; a_name := a_name a; a_weight := lower v; a_fixed := a_fixed a; a_up := a_up a; a_ut := a_ut a; a_desc := d |})
      else if beqb key (bs "ItalicAngle") then num (fun n => with_desc a {| k_asc := k_asc d; k_desc := k_desc d; k_cap := k_cap d; k_flags := k_flags d; k_box := k_box d; k_angle := n; k_stem := k_stem d; k_missing := k_missing d |})
      else if beqb key (bs "Ascender") then num (fun n => with_desc a {| k_asc := n; k_desc := k_desc d; k_cap := k_cap d; k_flags := k_flags d; k_box := k_box d; k_angle := k_angle d; k_stem := k_stem d; k_missing := k_missing d |})
      else if beqb key (bs "Descender") then num (fun n => with_desc a {| k_asc := k_asc d; k_desc := n; k_cap := k_cap d; k_flags := k_flags d; k_box := k_box d; k_angle := k_angle d; k_stem := k_stem d; k_missing := k_missing d |})
      else if beqb key (bs "UnderlineThickness") then num (fun n => {| a_widths := a_widths a; a_name := a_name a; a_weight := a_weight a; a_fixed := a_fixed a; a_up := a_up a; a_ut := n; a_desc := d |})
      else if beqb key (bs "UnderlinePosition") then num (fun n => {| a_widths := a_widths a; a_name := a_name a; a_weight := a_weight a; a_fixed := a_fixed a; a_up := n; a_ut := a_ut a; a_desc := d |})
      else if beqb key (bs "IsFixedPitch") then Ret (Some {| a_widths := a_widths a; a_name := a_name a; a_weight := a_weight a; a_fixed := beqb v (bs "true"); a_up := a_up a; a_ut := a_ut a; a_desc := d |})
      else if beqb key (bs "FontBBox") then
        match atoi v with None => Ret None | Some x0 =>
        do f2 <- fld l 2 ;; match atoi f2 with None => Ret None | Some y0 =>
        do f3 <- fld l 3 ;; match atoi f3 with None => Ret None | Some x1 =>
        do f4 <- fld l 4 ;; match atoi f4 with None => Ret None | Some y1 =>
          Ret (Some (with_desc a {| k_asc := k_asc d; k_desc := k_desc d; k_cap := k_cap d; k_flags := k_flags d; k_box := (x0, y0, x1, y1); k_angle := k_angle d; k_stem := k_stem d; k_missing := k_missing d |}))
        end end end end
      else if beqb key (bs "CapHeight") then num (fun n => with_desc a {| k_asc := k_asc d; k_desc := k_desc d; k_cap := n; k_flags := k_flags d; k_box := k_box d; k_angle := k_angle d; k_stem := k_stem d; k_missing := k_missing d |})
      else if beqb key (bs "StdVW") then num (fun n => with_desc a {| k_asc := k_asc d; k_desc := k_desc d; k_cap := k_cap d; k_flags := k_flags d; k_box := k_box d; k_angle := k_angle d; k_stem := n; k_missing := k_missing d |})
      else Ret (Some a)
  | _ => Ret (Some a)
  end.
Fixpoint afm_lines (ls : list bytes) (a : afm) : outcome (option afm) :=
  match ls with [] => Ret (Some a) | t :: ls => do r <- afm_line a (fields_from [] t) ;; match r with None => Ret None | Some a => afm_lines ls a end end.
Fixpoint wd_of (l : list (bytes * Z)) (n : bytes) : option Z := match l with [] => None | (m, w) :: l => if beqb n m then Some w else wd_of l n end.
(** font.go:171-291 [getInfoFromType1]; [metrics]: the .afm file *)
Definition type1 (f : bytes) (metrics : option bytes) (embed : bool) (enc : list entry) : outcome (option finfo) :=
  let read (data : bytes) (s1 s2 : Z) :=
    match metrics with
    | None | Some [] => Ret None
    | Some m =>
        do r <- afm_lines (lines_from [] m) afm0 ;;
        match r with
        | None => Ret None
        | Some a =>
            if beqb (a_name a) [] then Ret None else
            let missing := match wd_of (a_widths a) notdef with Some w => w | None => k_missing (a_desc a) end in
            let d := a_desc a in
            Ret (Some {| n_data := data; n_orig := 0; n_name := a_name a; n_bold := beqb (a_weight a) (bs "bold") || beqb (a_weight a) (bs "black"); n_fixed := a_fixed a;
                         n_up := a_up a; n_ut := a_ut a;
                         n_widths := map (fun e => if beqb (fst e) notdef then missing else match wd_of (a_widths a) (fst e) with Some w => w | None => missing end) enc;
                         n_size1 := s1; n_size2 := s2;
                         n_desc := {| k_asc := k_asc d; k_desc := k_desc d; k_cap := k_cap d; k_flags := k_flags d; k_box := k_box d; k_angle := k_angle d; k_stem := k_stem d; k_missing := missing |} |})
        end
    end in
  if embed then
    match segment f 0 with
    | None => Ret None
    | Some (d1, p) => match segment f p with None => Ret None | Some (d2, _) => read (d1 ++ d2) (Z.of_nat (length d1)) (Z.of_nat (length d2)) end
    end
  else read [] 0 0.

(** font.go:293-313 [makeFontDescriptor] *)
Definition descriptor (i : finfo) : fdesc :=
  let d := n_desc i in
  let fl := 32 in
  let fl := if n_fixed i then Z.lor fl 1 else fl in
  let fl := if negb (k_angle d =? 0) then Z.lor fl 64 else fl in
  {| k_asc := k_asc d; k_desc := k_desc d; k_cap := if k_cap d =? 0 then k_asc d else k_cap d; k_flags := fl; k_box := k_box d; k_angle := k_angle d;
     k_stem := if k_stem d =? 0 then if n_bold i then 120 else 70 else k_stem d; k_missing := k_missing d |}.
(** font.go:321-332 (makeFontEncoding): from code [j] on *)
Fixpoint diff_from (k : nat) (j last : Z) (enc ref : list entry) : bytes :=
  match k, enc, ref with
  | S k, e :: enc, r :: ref =>
      if beqb (fst e) (fst r) then diff_from k (j + 1) last enc ref
      else (if j =? last + 1 then [] else dec j ++ [32]) ++ 47 :: fst e ++ [32] ++ diff_from k (j + 1) j enc ref
  | _, _, _ => []
  end.
(** strings.TrimSpace on ASCII, at the end only: the text begins with a digit (font.go:332) *)
Fixpoint trim_rev (r : bytes) : bytes := match r with c :: t => if is_space c then trim_rev t else r | [] => [] end.
(** font.go:316-334 [makeFontEncoding] *)
Definition differences_text (enc ref : list entry) : bytes := rev (trim_rev (rev (diff_from 224 32 0 (skipn 32 enc) (skipn 32 ref)))).

(** def.go:699-716 [fontDefType], as far as makeDefinitionFile fills it *)
Record fdef := { d_type : bytes; d_name : bytes; d_desc : fdesc; d_up : Z; d_ut : Z; d_cw : list Z; d_enc : bytes; d_diff : bytes; d_file : bytes; d_size1 : Z; d_size2 : Z; d_orig : Z }.
(** font.go:40-47 [baseNoExt], for the name of a file *)
Fixpoint after_slash (acc s : bytes) : bytes := match s with [] => rev acc | c :: s => if c =? 47 then after_slash [] s else after_slash (c :: acc) s end.
Fixpoint before_dot (r : bytes) : option bytes := match r with [] => None | c :: r => if c =? 46 then Some r else before_dot r end.
Definition base_no_ext (s : bytes) : bytes := let b := after_slash [] s in match before_dot (rev b) with Some r => rev r | None => b end.

(** font.go:336-381 [makeDefinitionFile], font.go:406-474 [MakeFont]: the definition, and the data put into the .z file *)
Definition make_font (rnd : Z -> Z -> Z) (scan : bytes -> option (Z * Z * bytes)) (ref : bytes -> bytes) (fs : bytes -> option bytes)
    (font_name enc_name : bytes) (embed : bool) : outcome (option (fdef * option bytes)) :=
  match fs font_name with
  | None => Ret None
  | Some f =>
      if (length font_name <? 3)%nat then Panic else
      let ext := lower (skipn (length font_name - 3) font_name) in
      let tt := beqb ext (bs "ttf") || beqb ext (bs "otf") in
      if negb (tt || beqb ext (bs "pfb")) then Ret None else
      do r <- load_map scan (fs enc_name) ;;
      match r with
      | None => Ret None
      | Some enc =>
          do r <- (if tt then true_type rnd f embed enc else type1 f (fs (firstn (length font_name - 3) font_name ++ bs "afm")) embed enc) ;;
          match r with
          | None => Ret None
          | Some i =>
              do r <- load_map scan (fs (ref enc_name)) ;;
              match r with
              | None => Ret None
              | Some refs =>
                  let file := if embed then base_no_ext font_name ++ bs ".z" else [] in
                  Ret (Some ({| d_type := if tt then bs "TrueType" else bs "Type1"; d_name := n_name i; d_desc := descriptor i; d_up := n_up i; d_ut := n_ut i; d_cw := n_widths i;
                                d_enc := base_no_ext enc_name; d_diff := differences_text enc refs; d_file := file; d_size1 := n_size1 i; d_size2 := n_size2 i; d_orig := n_orig i |},
                             if embed then Some (n_data i) else None))
              end
          end
      end
  end.
