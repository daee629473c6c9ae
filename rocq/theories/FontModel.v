(** ttfparser.go and font.go: reading the metrics of a font and making a font definition.

    Files are read at explicit positions.  [binary.Read] leaves 0 when the bytes are not all there; afterwards the
    position is at or after the end of the file and all further reads give 0 as well, as here. *)
From Verif Require Import Base TtfSpec CutModel.
From Coq Require Import String.
Open Scope Z_scope.
Notation length := List.length.
Local Notation "'do' x <- a ;; b" := (obind a (fun x => b)) (at level 200, x pattern, a at level 100, b at level 200).
Definition flen (f : bytes) : Z := Z.of_nat (length f).

(** ttfparser.go:361-364 [ReadUShort], ttfparser.go:366-369 [ReadShort], ttfparser.go:371-374 [ReadULong] *)
Definition r16 (f : bytes) (p : Z) : Z := if p + 2 <=? flen f then u16 f p else 0.
Definition ri16 (f : bytes) (p : Z) : Z := let v := r16 f p in if v <? 32768 then v else v - 65536.
Definition r32 (f : bytes) (p : Z) : Z := if p + 4 <=? flen f then u32 f p else 0.
(** ttfparser.go:347-359 [ReadStr]; [None]: an error (reading no bytes at all is none) *)
Definition rstr (f : bytes) (p n : Z) : option bytes := if (n =? 0) || (p + n <=? flen f) then Some (extract f p n) else None.

(** ttfparser.go:34-49 [TtfType]; [tt_chars]: the entries of the map, the last one made first *)
Record ttf := { tt_embed : bool; tt_em : Z; tt_name : bytes; tt_bold : bool; tt_angle : Z; tt_fixed : bool; tt_asc : Z; tt_desc : Z;
                tt_up : Z; tt_ut : Z; tt_box : Z * Z * Z * Z; tt_cap : Z; tt_widths : list Z; tt_chars : list (Z * Z) }.
Fixpoint chr (l : list (Z * Z)) (c : Z) : option Z := match l with [] => None | (d, g) :: t => if c =? d then Some g else chr t c end.

(** ttfparser.go:78-91 (TtfParse): the table directory; a later table replaces an earlier one of the same name *)
Fixpoint dir_loop (f : bytes) (k : nat) (p : Z) (acc : list (bytes * Z)) : option (list (bytes * Z)) :=
  match k with
  | O => Some acc
  | S k => match rstr f p 4 with None => None | Some tg => dir_loop f k (p + 16) ((tg, r32 f (p + 8)) :: acc) end
  end.
Fixpoint place (dir : list (bytes * Z)) (name : bytes) : option Z :=
  match dir with [] => None | (t, o) :: l => if beqb name t then Some o else place l name end.

(** ttfparser.go:163-179 [ParseHmtx] *)
Definition widths_of (f : bytes) (o n g : Z) : outcome (list Z) :=
  let l := map (fun j => r16 f (o + 4 * j)) (range 0 (Z.to_nat n)) in
  if n <? g then if n =? 0 then Panic else Ret (l ++ repeat (r16 f (o + 4 * (n - 1))) (Z.to_nat (g - n))) else Ret l.

(** ttfparser.go:187-196 (ParseCmap): the last record for platform 3 and encoding 1 *)
Fixpoint last_record (f : bytes) (k : nat) (p : Z) (found : Z) : Z :=
  match k with
  | O => found
  | S k => last_record f k (p + 8) (if (r16 f p =? 3) && (r16 f (p + 2) =? 1) then r32 f (p + 4) else found)
  end.
(** ttfparser.go:237-256 (ParseCmap): one segment, from character [c] on, [k] characters at most; [p]: the position in the file *)
Fixpoint chars_loop (f : bytes) (k : nat) (c d ro p : Z) (acc : list (Z * Z)) : list (Z * Z) :=
  match k with
  | O => acc
  | S k =>
      if c =? 65535 then acc
      else
        let '(gid, p) := if 0 <? ro then (let g := r16 f p in if 0 <? g then g + d else g, p + 2) else (c + d, p) in
        let gid := if 65536 <=? gid then gid - 65536 else gid in
        chars_loop f k (c + 1) d ro p (if 0 <? gid then (c, gid mod 65536) :: acc else acc)
  end.
(** ttfparser.go:213-257 (ParseCmap): the segments from [j] on; the subtable is at [q] and has [n] segments *)
Fixpoint segs_loop (f : bytes) (k : nat) (q n j : Z) (acc : list (Z * Z)) : list (Z * Z) :=
  match k with
  | O => acc
  | S k =>
      let c2 := r16 f (q + 14 + 2 * j) in
      let c1 := r16 f (q + 16 + 2 * n + 2 * j) in
      let d := ri16 f (q + 16 + 4 * n + 2 * j) in
      let ro := r16 f (q + 16 + 6 * n + 2 * j) in
      segs_loop f k q n (j + 1) (chars_loop f (Z.to_nat (c2 - c1 + 1)) c1 d ro (q + 16 + 6 * n + 2 * j + ro) acc)
  end.
(** ttfparser.go:181-259 [ParseCmap] *)
Definition chars_of (f : bytes) (o : Z) : option (list (Z * Z)) :=
  let off := last_record f (Z.to_nat (r16 f (o + 2))) (o + 4) 0 in
  if off =? 0 then None
  else let q := o + off in
       if negb (r16 f q =? 4) then None
       else let n := r16 f (q + 6) / 2 in Some (segs_loop f (Z.to_nat n) q n 0 []).

(** ttfparser.go:261-295 [ParseName]: after a name that is left empty the next record is read from after that name *)
Fixpoint name_from (f : bytes) (strings : Z) (k : nat) (p : Z) : option bytes :=
  match k with
  | O => None
  | S k =>
      if r16 f (p + 6) =? 6 then
        let q := strings + r16 f (p + 10) in
        match rstr f q (r16 f (p + 8)) with
        | None => None
        | Some s =>
            let s := filter (fun c => negb (existsb (Z.eqb c) (bs "(){}<> /%[]"))) (filter (fun c => negb (c =? 0)) s) in
            if beqb s [] then name_from f strings k (q + r16 f (p + 8)) else Some s
        end
      else name_from f strings k (p + 12)
  end.
Definition name_of (f : bytes) (o : Z) : option bytes := name_from f (o + r16 f (o + 4)) (Z.to_nat (r16 f (o + 2))) (o + 6).

(** ttfparser.go:60-99 [TtfParse], ttfparser.go:101-125 [ParseComponents], ttfparser.go:127-143 [ParseHead], ttfparser.go:145-152 [ParseHhea], ttfparser.go:154-161 [ParseMaxp],
    ttfparser.go:297-318 [ParseOS2], ttfparser.go:320-331 [ParsePost], ttfparser.go:333-341 [Seek]; [None]: an error.  [f] is what is in the file *)
Definition ttf_parse (f : bytes) : outcome (option ttf) :=
  let stop := Ret None in
  match rstr f 0 4 with
  | None => stop
  | Some version =>
      if negb (beqb version [0; 1; 0; 0]) then stop else
      match dir_loop f (Z.to_nat (r16 f 4)) 12 [] with
      | None => stop
      | Some dir =>
          match place dir (bs "head") with None => stop | Some head =>
          if negb (r32 f (head + 12) =? 1594834165) then stop else
          match place dir (bs "hhea") with None => stop | Some hhea =>
          match place dir (bs "maxp") with None => stop | Some maxp =>
          match place dir (bs "hmtx") with None => stop | Some hmtx =>
          do widths <- widths_of f hmtx (r16 f (hhea + 34)) (r16 f (maxp + 4)) ;;
          match place dir (bs "cmap") with None => stop | Some cmap =>
          match chars_of f cmap with None => stop | Some chars =>
          match place dir (bs "name") with None => stop | Some nm =>
          match name_of f nm with None => stop | Some name =>
          match place dir (bs "OS/2") with None => stop | Some os2 =>
          match place dir (bs "post") with None => stop | Some post =>
            let fstype := r16 f (os2 + 8) in
            Ret (Some {| tt_embed := negb (fstype =? 2) && (Z.land fstype 512 =? 0); tt_em := r16 f (head + 18); tt_name := name;
                         tt_bold := negb (Z.land (r16 f (os2 + 62)) 32 =? 0); tt_angle := ri16 f (post + 4); tt_fixed := negb (r32 f (post + 12) =? 0);
                         tt_asc := ri16 f (os2 + 68); tt_desc := ri16 f (os2 + 70); tt_up := ri16 f (post + 8); tt_ut := ri16 f (post + 10);
                         tt_box := (ri16 f (head + 36), ri16 f (head + 38), ri16 f (head + 40), ri16 f (head + 42));
                         tt_cap := if 2 <=? r16 f os2 then ri16 f (os2 + 88) else 0; tt_widths := widths; tt_chars := chars |})
          end end end end end end end end end end
      end
  end.
