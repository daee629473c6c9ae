(** Reading a TrueType file (OpenType specification: font file, cmap format 4). *)
From Verif Require Import Base.
From Coq Require Import String.
Open Scope Z_scope.

(** big-endian fields *)
Definition byte_at (s : bytes) (p : Z) : Z := nth (Z.to_nat p) s 0.
Definition u16 (s : bytes) (p : Z) : Z := byte_at s p * 256 + byte_at s (p + 1).
Definition u32 (s : bytes) (p : Z) : Z := u16 s p * 65536 + u16 s (p + 2).
Definition extract (s : bytes) (p n : Z) : bytes := firstn (Z.to_nat n) (skipn (Z.to_nat p) s).

(** the sum of the 32-bit words of a table padded with zeros, modulo 2^32 *)
Fixpoint words_sum (s : bytes) : Z :=
  match s with
  | a :: b :: c :: d :: t => (((a * 256 + b) * 256 + c) * 256 + d) + words_sum t
  | [a; b; c] => ((a * 256 + b) * 256 + c) * 256
  | [a; b] => (a * 256 + b) * 256 * 256
  | [a] => a * 256 * 256 * 256
  | [] => 0
  end.
Definition checksum32 (s : bytes) : Z := words_sum s mod 2 ^ 32.

(** the table directory *)
Definition num_tables (s : bytes) : Z := u16 s 4.
Definition tag (s : bytes) (i : Z) : bytes := extract s (12 + 16 * i) 4.
Definition tsum (s : bytes) (i : Z) : Z := u32 s (12 + 16 * i + 4).
Definition toff (s : bytes) (i : Z) : Z := u32 s (12 + 16 * i + 8).
Definition tlen (s : bytes) (i : Z) : Z := u32 s (12 + 16 * i + 12).
Definition tdata (s : bytes) (i : Z) : bytes := extract s (toff s i) (tlen s i).

(** The character map: the first encoding record for platform 3 (Windows),
    encoding 1 (Unicode BMP) leads to a subtable of format 4. *)
Fixpoint find_record (s : bytes) (k : nat) (p : Z) : option Z :=
  match k with
  | O => None
  | S k' => if (u16 s p =? 3) && (u16 s (p + 2) =? 1) then Some (u32 s (p + 4)) else find_record s k' (p + 8)
  end.
(** the first segment whose end code is not below the character *)
Fixpoint find_segment (s : bytes) (ends : Z) (k : nat) (i c : Z) : option Z :=
  match k with
  | O => None
  | S k' => if c <=? u16 s (ends + 2 * i) then Some i else find_segment s ends k' (i + 1) c
  end.
(** format 4 at offset [o]; a character in no segment is glyph 0 *)
Definition lookup4 (s : bytes) (o c : Z) : Z :=
  let segx2 := u16 s (o + 6) in
  match find_segment s (o + 14) (Z.to_nat (segx2 / 2)) 0 c with
  | None => 0
  | Some i =>
      let start := u16 s (o + 16 + segx2 + 2 * i) in
      let delta := u16 s (o + 16 + 2 * segx2 + 2 * i) in
      let rp := o + 16 + 3 * segx2 + 2 * i in
      if c <? start then 0
      else if u16 s rp =? 0 then (c + delta) mod 65536
      else let g := u16 s (rp + u16 s rp + 2 * (c - start)) in
           if g =? 0 then 0 else (g + delta) mod 65536
  end.
Definition cmap_glyph (s : bytes) (c : Z) : option Z :=
  match find_record s (Z.to_nat (u16 s 2)) 4 with
  | None => None
  | Some o => if u16 s o =? 4 then Some (lookup4 s o c) else None
  end.
