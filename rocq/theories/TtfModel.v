(** utf8fontfile.go: writing the subset font file.  Byte slices are values here;
    the code also appends into the caller's slice while padding (generateChecksum),
    which changes bytes after a table only where the source font file has its
    own padding, when its tables are aligned. *)
From Verif Require Import Base DocModel.
From Coq Require Import String.
Open Scope Z_scope.

(** utf8fontfile.go:1104-1108 [packUint16]; uint16(n) is n modulo 2^16 *)
Definition pack16 (n : Z) : bytes := [n / 256 mod 256; n mod 256].
(** utf8fontfile.go:1098-1102 [packUint32] *)
Definition pack32 (n : Z) : bytes := [n / 16777216 mod 256; n / 65536 mod 256; n / 256 mod 256; n mod 256].
(** utf8fontfile.go:1061-1076 [packHeader] *)
Definition pack_header (n n1 n2 n3 n4 : Z) : bytes := pack32 n ++ pack16 n1 ++ pack16 n2 ++ pack16 n3 ++ pack16 n4.

(** utf8fontfile.go:217-220 [splice]: panics when the place is outside *)
Definition splice (s : bytes) (o : Z) (v : bytes) : outcome bytes :=
  match slice s 0 o, slice s (o + Z.of_nat (List.length v)) (Z.of_nat (List.length s)) with
  | Some a, Some b => Ret (a ++ v ++ b)
  | _, _ => Panic
  end.
(** utf8fontfile.go:222-226 [insertUint16] *)
Definition insert_u16 (s : bytes) (o v : Z) : outcome bytes := splice s o (pack16 v).

(** utf8fontfile.go:152-165 [calcInt32] *)
Definition calc_int32 (x y : Z * Z) : Z * Z :=
  let '(x0, x1) := x in
  let '(y0, y1) := y in
  let '(x0, x1) := if x1 <? y1 then (x0 + 1, x1 + 65536) else (x0, x1) in
  let a1 := x1 - y1 in
  let x0 := if x0 <? y0 then x0 + 65536 else x0 in
  (Z.land (x0 - y0) 65535, a1).

(** utf8fontfile.go:167-182 [generateChecksum]: the loop over the words *)
Fixpoint sum_loop (s : bytes) (a : Z * Z) : Z * Z :=
  match s with
  | b0 :: b1 :: b2 :: b3 :: t =>
      let a0 := fst a + (b0 * 256 + b1) in
      let a1 := snd a + (b2 * 256 + b3) in
      sum_loop t (Z.land (a0 + Z.shiftr a1 16) 65535, Z.land a1 65535)
  | _ => a
  end.
Definition pad4 (s : bytes) : bytes := s ++ repeat 0 (Z.to_nat ((- Z.of_nat (List.length s)) mod 4)).
Definition generate_checksum (s : bytes) : Z * Z := sum_loop (pad4 s) (0, 0).

(** utf8fontfile.go:250-258 [setOutTable] for the table head: the adjustment is cleared *)
Definition clear_head (name data : bytes) : outcome bytes :=
  if beqb name (bs "head") then splice data 8 [0; 0; 0; 0] else Ret data.

(** utf8fontfile.go:988-993, 583-588: the largest power of two not above [n] *)
Fixpoint pow2_loop (fuel : nat) (n size writer : Z) : Z * Z :=
  match fuel with
  | O => (size, writer)
  | S f => if size * 2 <=? n then pow2_loop f n (size * 2) (writer + 1) else (size, writer)
  end.

(** one table of the directory, utf8fontfile.go:1004-1015 *)
Definition dir_entry (offset : Z) (t : bytes * bytes) : bytes :=
  let '(c0, c1) := generate_checksum (snd t) in
  fst t ++ (pack16 c0 ++ pack16 c1) ++ (pack32 offset ++ pack32 (Z.of_nat (List.length (snd t)))).
Definition padded (n : Z) : Z := Z.land (n + 3) (Z.lnot 3).
Fixpoint dir_entries (offset begin : Z) (ts : list (bytes * bytes)) : bytes * Z :=
  match ts with
  | [] => ([], begin)
  | t :: r =>
      let begin := if beqb (fst t) (bs "head") then offset else begin in
      let '(rest, b) := dir_entries (offset + padded (Z.of_nat (List.length (snd t)))) begin r in
      (dir_entry offset t ++ rest, b)
  end.
(** utf8fontfile.go:1017-1021: the data, each padded to four bytes *)
Definition padded_data (d : bytes) : bytes :=
  let d' := d ++ [0; 0; 0] in firstn (Z.to_nat (Z.land (Z.of_nat (List.length d')) (Z.lnot 3))) d'.

(** utf8fontfile.go:985-1027 [assembleTables]; the map of tables is a list in
    any order *)
Definition assemble (tables : list (bytes * bytes)) : outcome bytes :=
  let count := Z.of_nat (List.length tables) in
  let '(size, writer) := pow2_loop (S (List.length tables)) count 1 0 in
  let find := size * 16 in
  let header := pack_header 65536 count find writer (count * 16 - find) in
  let ts := sort_by (fun a b => bltb (fst a) (fst b)) tables in
  let '(dir, begin) := dir_entries (12 + count * 16) 0 ts in
  let answer := header ++ dir ++ flat_map (fun t => padded_data (snd t)) ts in
  let '(a0, a1) := calc_int32 (45488, 44986) (generate_checksum answer) in
  splice answer (begin + 8) (pack16 a0 ++ pack16 a1).

(** utf8fontfile.go:570-636 [generateCMAPTable].  The argument is a map from
    characters to glyphs; the code visits its keys in increasing order. *)
Record mst := { m_id : Z; m_arr : list (Z * list Z); m_pc : Z; m_ps : Z }.
(** cidArray[k] = append(cidArray[k], g); a missing key is an empty list *)
Fixpoint append_at (k g : Z) (m : list (Z * list Z)) : list (Z * list Z) :=
  match m with
  | [] => [(k, [g])]
  | (x, l) :: t => if x =? k then (x, l ++ [g]) :: t else (x, l) :: append_at k g t
  end.
Definition set_at (k : Z) (l : list Z) (m : list (Z * list Z)) : list (Z * list Z) :=
  filter (fun e => negb (fst e =? k)) m ++ [(k, l)].
(** utf8fontfile.go:576-590, one round of the loop *)
Definition cmap_step (s : mst) (p : Z * Z) : mst :=
  let '(cid, g) := p in
  if (cid =? m_pc s + 1) && (g =? m_ps s + 1)
  then {| m_id := m_id s; m_arr := append_at (m_id s) g (m_arr s); m_pc := cid; m_ps := g |}
  else {| m_id := cid; m_arr := set_at cid [g] (m_arr s); m_pc := cid; m_ps := g |}.
Definition cmap_table (pairs : list (Z * Z)) (num_symbols : Z) : outcome bytes :=
  let sorted := sort_by (fun a b => fst a <? fst b) pairs in
  let st := fold_left cmap_step sorted {| m_id := 0; m_arr := []; m_pc := -2; m_ps := -1 |} in
  let arr := sort_by (fun a b => fst a <? fst b) (m_arr st) in
  let seg := Z.of_nat (List.length arr) + 1 in
  let '(size, sel) := pow2_loop (Z.to_nat seg) seg 1 0 in
  let range := size * 2 in
  let len := 16 + 8 * seg + (num_symbols + 1) in
  match flat_map (fun e => match snd e with [] => [] | g :: _ => [- (fst e - g)] end) arr with
  | deltas =>
      if negb (Nat.eqb (List.length deltas) (List.length arr)) then Panic (* index [0] of an empty slice *)
      else Ret (flat_map pack16
        ([0; 1; 3; 1; 0; 12; 4; len; 0; seg * 2; range; sel; seg * 2 - range]
         ++ map (fun e => fst e + (Z.of_nat (List.length (snd e)) - 1)) arr ++ [65535; 0]
         ++ map fst arr ++ [65535]
         ++ deltas ++ [1]
         ++ map (fun _ => 0) arr ++ [0]
         ++ flat_map snd arr ++ [0]))
  end.
