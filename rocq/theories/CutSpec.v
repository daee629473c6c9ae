(** Reading the glyphs of a TrueType font (OpenType specification: head, maxp, loca, glyf, hhea, hmtx, cmap). *)
From Verif Require Import Base TtfSpec.
From Coq Require Import String.
Open Scope Z_scope.
Notation length := List.length.
Notation len s := (Z.of_nat (List.length s)).

(** the font file has exactly one table of this name, inside the file, with these data *)
Definition table_in (file : bytes) (name : string) (data : bytes) : Prop :=
  exists i, 0 <= i < num_tables file /\ tag file i = bs name /\ tdata file i = data /\ toff file i + tlen file i <= len file /\
    forall j, 0 <= j < num_tables file -> tag file j = bs name -> j = i.
Record font := { F_head : bytes; F_maxp : bytes; F_hhea : bytes; F_hmtx : bytes; F_loca : bytes; F_glyf : bytes }.
Definition font_in (file : bytes) (F : font) : Prop :=
  table_in file "head" (F_head F) /\ table_in file "maxp" (F_maxp F) /\ table_in file "hhea" (F_hhea F) /\
  table_in file "hmtx" (F_hmtx F) /\ table_in file "loca" (F_loca F) /\ table_in file "glyf" (F_glyf F).

Definition glyph_count (F : font) : Z := u16 (F_maxp F) 4.
Definition loca_at (F : font) (i : Z) : Z :=
  if u16 (F_head F) 50 =? 0 then 2 * u16 (F_loca F) (2 * i) else u32 (F_loca F) (4 * i).
Definition glyph (F : font) (g : Z) : bytes := extract (F_glyf F) (loca_at F g) (loca_at F (g + 1) - loca_at F g).
Definition long_metrics (F : font) : Z := u16 (F_hhea F) 34.
(** glyphs after the long metrics have the advance width of the last of them *)
Definition advance (F : font) (g : Z) : Z := u16 (F_hmtx F) (4 * (if g <? long_metrics F then g else long_metrics F - 1)).
Definition bearing (F : font) (g : Z) : Z :=
  if g <? long_metrics F then u16 (F_hmtx F) (4 * g + 2) else u16 (F_hmtx F) (4 * long_metrics F + 2 * (g - long_metrics F)).

(** a glyph made of other glyphs has a negative number of contours *)
Definition composite (data : bytes) : bool := (2 <? len data) && (32768 <=? u16 data 0).
(** flags of a component: 0 arguments are words, 3 scale, 5 more components, 6 two scales, 7 matrix *)
Definition component_size (flags : Z) : Z :=
  4 + (if Z.testbit flags 0 then 4 else 2) +
  (if Z.testbit flags 3 then 2 else if Z.testbit flags 6 then 4 else if Z.testbit flags 7 then 8 else 0).
(** the places of the glyph numbers in the component records from place [p] on *)
Inductive components (data : bytes) : Z -> list Z -> Prop :=
| comp_last p : p + 4 <= len data -> Z.testbit (u16 data p) 5 = false -> components data p [p + 2]
| comp_more p l : p + 4 <= len data -> Z.testbit (u16 data p) 5 = true ->
    components data (p + component_size (u16 data p)) l -> components data p (p + 2 :: l).
(** glyph [g] is drawn with glyph [h] *)
Definition uses (F : font) (g h : Z) : Prop :=
  composite (glyph F g) = true /\ exists fields p, components (glyph F g) 10 fields /\ In p fields /\ u16 (glyph F g) p = h.
(** the glyphs needed to draw those in [l] *)
Inductive needed (F : font) (l : list Z) : Z -> Prop :=
| need_self g : In g l -> needed F l g
| need_part g h : needed F l g -> uses F g h -> needed F l h.

(** [data'] draws what [data] draws, when the glyphs are renumbered by [ren]: the same bytes, but for the glyph
    numbers of components and at most three zeros at the end *)
Definition redrawn (ren : Z -> Z) (data data' : bytes) : Prop :=
  exists body k, data' = body ++ repeat 0 k /\ (k < 4)%nat /\ len body = len data /\
    (composite data = false -> body = data) /\
    (composite data = true -> exists fields, components data 10 fields /\
       (forall p, In p fields -> u16 body p = ren (u16 data p)) /\
       (forall q, 0 <= q < len data -> (forall p, In p fields -> q <> p /\ q <> p + 1) -> byte_at body q = byte_at data q)).

(** the same bytes but for those from [a] to [b] *)
Definition changed_only (a b : Z) (s s' : bytes) : Prop :=
  len s' = len s /\ forall q, 0 <= q -> q < a \/ b < q -> byte_at s' q = byte_at s q.

(** ** Fonts as they should be *)
(** glyph places in order and inside the table, no glyph of one to nine bytes, metrics for all glyphs *)
Record sound_glyphs (F : font) : Prop := {
  sg_format : u16 (F_head F) 50 = 0 \/ u16 (F_head F) 50 = 1;
  sg_glyf : F_glyf F <> [];
  sg_tables : 52 <= len (F_head F) /\ 36 <= len (F_hhea F) /\ 6 <= len (F_maxp F);
  sg_loca : (glyph_count F + 1) * (if u16 (F_head F) 50 =? 0 then 2 else 4) <= len (F_loca F);
  sg_order : forall g, 0 <= g < glyph_count F -> loca_at F g <= loca_at F (g + 1) <= len (F_glyf F);
  sg_size : forall g, 0 <= g < glyph_count F -> loca_at F (g + 1) - loca_at F g = 0 \/ 10 <= loca_at F (g + 1) - loca_at F g;
  sg_long : 1 <= long_metrics F <= glyph_count F;
  sg_hmtx : 4 * long_metrics F + 2 * (glyph_count F - long_metrics F) <= len (F_hmtx F) }.
(** the first subtable of format 4 for Unicode: platform 0, or platform 3 with encoding 1 *)
Fixpoint find_unicode (s : bytes) (k : nat) (p : Z) : option Z :=
  match k with
  | O => None
  | S k' => if ((u16 s p =? 0) || ((u16 s p =? 3) && (u16 s (p + 2) =? 1))) && (u16 s (u32 s (p + 4)) =? 4) then Some (u32 s (p + 4))
            else find_unicode s k' (p + 8)
  end.
Definition unicode_map (s : bytes) : option Z := find_unicode s (Z.to_nat (u16 s 2)) 4.
(** characters after the basic plane have no glyph in such a subtable *)
Definition char_glyph (cm : bytes) (o c : Z) : Z := if (0 <=? c) && (c <=? 65535) then lookup4 cm o c else 0.
(** the character map [s] with this subtable at [o]: everything inside the table, segments in order and apart *)
Definition seg_end_of (s : bytes) (o i : Z) : Z := u16 s (o + 14 + 2 * i).
Definition seg_start_of (s : bytes) (o i : Z) : Z := u16 s (o + 16 + u16 s (o + 6) + 2 * i).
Record sound_map (s : bytes) (o : Z) : Prop := {
  sm_records : 4 + 8 * u16 s 2 <= len s;
  sm_inside : forall i, 0 <= i < u16 s 2 -> u32 s (4 + 8 * i + 4) + 2 <= len s;
  sm_found : unicode_map s = Some o;
  sm_even : u16 s (o + 6) mod 2 = 0;
  sm_length : 16 + 4 * u16 s (o + 6) <= u16 s (o + 2) /\ o + u16 s (o + 2) <= len s;
  sm_segment : forall i, 0 <= i < u16 s (o + 6) / 2 -> seg_start_of s o i <= seg_end_of s o i;
  sm_apart : forall i j, 0 <= i < j -> j < u16 s (o + 6) / 2 -> seg_end_of s o i < seg_start_of s o j;
  sm_range : forall i, 0 <= i < u16 s (o + 6) / 2 ->
    let rp := 16 + 3 * u16 s (o + 6) + 2 * i in
    u16 s (o + rp) = 0 \/ rp + u16 s (o + rp) + 2 * (seg_end_of s o i - seg_start_of s o i) + 2 <= u16 s (o + 2) }.
(** no two tables share bytes *)
Definition separate_tables (file : bytes) : Prop :=
  forall i j, 0 <= i < num_tables file -> 0 <= j < num_tables file -> i <> j ->
    toff file i + tlen file i <= toff file j \/ toff file j + tlen file j <= toff file i.
