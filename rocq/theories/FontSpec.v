(** Reading the metrics of a TrueType font (OpenType specification: head, hhea, maxp, hmtx, cmap, name, OS/2, post). *)
From Verif Require Import Base TtfSpec CutSpec.
From Coq Require Import String.
Open Scope Z_scope.
Notation length := List.length.

(** a signed number of two bytes *)
Definition i16 (s : bytes) (p : Z) : Z := if u16 s p <? 32768 then u16 s p else u16 s p - 65536.
Record tables := { T_head : bytes; T_hhea : bytes; T_maxp : bytes; T_hmtx : bytes; T_cmap : bytes; T_name : bytes; T_os2 : bytes; T_post : bytes }.
Definition tables_in (f : bytes) (T : tables) : Prop :=
  table_in f "head" (T_head T) /\ table_in f "hhea" (T_hhea T) /\ table_in f "maxp" (T_maxp T) /\ table_in f "hmtx" (T_hmtx T) /\
  table_in f "cmap" (T_cmap T) /\ table_in f "name" (T_name T) /\ table_in f "OS/2" (T_os2 T) /\ table_in f "post" (T_post T).
Definition glyphs (T : tables) : Z := u16 (T_maxp T) 4.
Definition metrics_count (T : tables) : Z := u16 (T_hhea T) 34.
(** glyphs after the long metrics have the advance width of the last of them *)
Definition advance_of (T : tables) (g : Z) : Z := u16 (T_hmtx T) (4 * (if g <? metrics_count T then g else metrics_count T - 1)).
(** the subtable for Windows and Unicode: [o] is its place, in all records for platform 3 and encoding 1 *)
Definition windows_map (s : bytes) (o : Z) : Prop :=
  (exists i, 0 <= i < u16 s 2 /\ u16 s (4 + 8 * i) = 3 /\ u16 s (4 + 8 * i + 2) = 1) /\
  (forall i, 0 <= i < u16 s 2 -> u16 s (4 + 8 * i) = 3 -> u16 s (4 + 8 * i + 2) = 1 -> u32 s (4 + 8 * i + 4) = o).
(** a subtable of format 4 at [o]: inside the table, the segments in order and apart *)
Record sound_segments (s : bytes) (o : Z) : Prop := {
  ss_records : 4 + 8 * u16 s 2 <= len s /\ 4 + 8 * u16 s 2 <= o;
  ss_format : u16 s o = 4;
  ss_even : u16 s (o + 6) mod 2 = 0;
  ss_length : 16 + 4 * u16 s (o + 6) <= u16 s (o + 2) /\ o + u16 s (o + 2) <= len s;
  ss_segment : forall i, 0 <= i < u16 s (o + 6) / 2 -> seg_start_of s o i <= seg_end_of s o i;
  ss_apart : forall i j, 0 <= i < j -> j < u16 s (o + 6) / 2 -> seg_end_of s o i < seg_start_of s o j;
  ss_range : forall i, 0 <= i < u16 s (o + 6) / 2 ->
    let rp := 16 + 3 * u16 s (o + 6) + 2 * i in
    u16 s (o + rp) = 0 \/ rp + u16 s (o + rp) + 2 * (seg_end_of s o i - seg_start_of s o i) + 2 <= u16 s (o + 2) }.
(** what may stand in a PostScript name *)
Definition name_byte (c : Z) : bool := negb (existsb (Z.eqb c) (0 :: bs "(){}<> /%[]")).
(** the first PostScript name of the table, without anything that may not be in one *)
Definition postscript_name (s name : bytes) : Prop :=
  exists i, 0 <= i < u16 s 2 /\ 6 + 12 * u16 s 2 <= len s /\ u16 s (6 + 12 * i + 6) = 6 /\
    (forall j, 0 <= j < i -> u16 s (6 + 12 * j + 6) <> 6) /\
    let p := u16 s 4 + u16 s (6 + 12 * i + 10) in let n := u16 s (6 + 12 * i + 8) in
    p + n <= len s /\ name = filter name_byte (extract s p n) /\ name <> [].
(** a font with everything in it *)
Record complete_font (T : tables) (o : Z) (name : bytes) : Prop := {
  cf_magic : u32 (T_head T) 12 = 1594834165;                (* 0x5F0F3CF5 *)
  cf_lengths : 54 <= len (T_head T) /\ 36 <= len (T_hhea T) /\ 6 <= len (T_maxp T) /\ 32 <= len (T_post T);
  cf_os2 : 78 <= len (T_os2 T) /\ (2 <= u16 (T_os2 T) 0 -> 96 <= len (T_os2 T));
  cf_metrics : 1 <= metrics_count T <= glyphs T;
  cf_hmtx : 4 * metrics_count T <= len (T_hmtx T);
  cf_map : windows_map (T_cmap T) o;
  cf_segments : sound_segments (T_cmap T) o;
  cf_glyphs : forall c, 0 <= c < 65535 -> lookup4 (T_cmap T) o c < glyphs T;
  cf_name : postscript_name (T_name T) name }.
