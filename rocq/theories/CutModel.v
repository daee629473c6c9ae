(** utf8fontfile.go: reading a TrueType font and cutting it down to the runes in use.

    The font file is a list of bytes.  A read outside of it is a panic; Go checks a slice
    expression against the capacity, so that a damaged font may read past the end of a slice where
    this model stops.  Slices that alias the font file are read again from the file as it is
    when their content matters.  Padding in generateChecksum may also write behind an aliased table
    (see TtfModel); that is not modelled. *)
From Verif Require Import Base DocModel TtfModel.
From Coq Require Import String.
Open Scope Z_scope.
Local Notation "'do' x <- a ;; b" := (obind a (fun x => b)) (at level 200, x pattern, a at level 100, b at level 200).

(** utf8fontfile.go:72-76 [Read] at a position *)
Definition rd (f : bytes) (p n : Z) : outcome bytes :=
  match slice f p (p + n) with Some b => Ret b | None => Panic end.
(** utf8fontfile.go:142-145 [readUint16], 211-215 [getUint16] and 1057-1059 [unpackUint16] *)
Definition rd16 (f : bytes) (p : Z) : outcome Z :=
  do b <- rd f p 2 ;; Ret (nth 0 b 0 * 256 + nth 1 b 0).
(** utf8fontfile.go:147-150 [readUint32] *)
Definition rd32 (f : bytes) (p : Z) : outcome Z :=
  do b <- rd f p 4 ;; Ret (((nth 0 b 0 * 256 + nth 1 b 0) * 256 + nth 2 b 0) * 256 + nth 3 b 0).
(** utf8fontfile.go:202-209 [readInt16]: the value modulo 2^16, from -32768 *)
Definition rdi16 (f : bytes) (p : Z) : outcome Z :=
  do v <- rd16 f p ;; Ret (if v <? 32768 then v else v - 65536).

Fixpoint omap {A B} (g : A -> outcome B) (l : list A) : outcome (list B) :=
  match l with
  | [] => Ret []
  | a :: t => do b <- g a ;; do r <- omap g t ;; Ret (b :: r)
  end.
(** the integers a, a+1, ..., n of them *)
Definition range (a : Z) (n : nat) : list Z := map (fun i => a + Z.of_nat i) (seq 0 n).

(** utf8fontfile.go:119-136 [generateTableDescriptions]; the last entry comes first, since an entry
    replaces an earlier one of the same name *)
Record desc := { t_pos : Z; t_size : Z }.
Definition read_entry (f : bytes) (i : Z) : outcome (bytes * desc) :=
  do name <- rd f (12 + 16 * i) 4 ;;
  do _ <- rd f (12 + 16 * i + 4) 4 ;;
  do p <- rd32 f (12 + 16 * i + 8) ;;
  do s <- rd32 f (12 + 16 * i + 12) ;;
  Ret (name, {| t_pos := p; t_size := s |}).
Definition read_dir (f : bytes) : outcome (list (bytes * desc)) :=
  do n <- rd16 f 4 ;;
  do _ <- rd f 6 6 ;;
  do l <- omap (read_entry f) (range 0 (Z.to_nat n)) ;; Ret (rev l).
Definition find_desc (dir : list (bytes * desc)) (name : bytes) : option desc :=
  option_map snd (find (fun e => beqb (fst e) name) dir).
(** utf8fontfile.go:193-195 [SeekTable]; the descriptor of a missing table is a nil pointer *)
Definition seek_table (dir : list (bytes * desc)) (name : string) : outcome Z :=
  match find_desc dir (bs name) with Some d => Ret (t_pos d) | None => Panic end.
(** utf8fontfile.go:237-248 [getTableData] *)
Definition table_data (f : bytes) (dir : list (bytes * desc)) (name : string) : outcome (option bytes) :=
  match find_desc dir (bs name) with
  | None => Ret None
  | Some d => if t_size d =? 0 then Ret None else do b <- rd f (t_pos d) (t_size d) ;; Ret (Some b)
  end.

(** utf8fontfile.go:497-529 [generateCMAP], up to the search of the subtable (also 449-475 [parseCMAPTable]) *)
Fixpoint find_cmap (f : bytes) (cmap : Z) (k : nat) (p : Z) : outcome (option Z) :=
  match k with
  | O => Ret None
  | S k' =>
      do system <- rd16 f p ;;
      do coder <- rd16 f (p + 2) ;;
      do position <- rd32 f (p + 4) ;;
      if ((system =? 3) && (coder =? 1)) || (system =? 0) then
        do format <- rd16 f (cmap + position) ;;
        if format =? 4 then Ret (if cmap + position =? 0 then None else Some (cmap + position))
        else find_cmap f cmap k' (p + 8)
      else find_cmap f cmap k' (p + 8)
  end.
Definition cmap_position (f : bytes) (dir : list (bytes * desc)) : outcome (option Z) :=
  do cmap <- seek_table dir "cmap" ;;
  do n <- rd16 f (cmap + 2) ;;
  find_cmap f cmap (Z.to_nat n) (cmap + 4).

(** utf8fontfile.go:924-976 [generateSCCSDictionaries]: the pairs of character and glyph in the order
    in which they are entered *)
Definition seg_symbol (f : bytes) (rim start delta pos rp char : Z) : outcome Z :=
  if pos =? 0 then Ret ((char + delta) mod 65536)
  else
    let position := rp + pos + (char - start) * 2 in
    if rim <=? position then Ret 0
    else
      do s <- rd16 f position ;;
      Ret (if s =? 0 then 0 else (s + delta) mod 65536).
Definition segment_pairs (f : bytes) (rim base n : Z) (starts ends deltas positions : list Z) : outcome (list (Z * Z)) :=
  let at_ (l : list Z) := nth (Z.to_nat n) l 0 in
  omap (fun char => do s <- seg_symbol f rim (at_ starts) (at_ deltas) (at_ positions) (base + 2 * n) char ;; Ret (char, s))
       (range (at_ starts) (Z.to_nat (at_ ends + 1 - at_ starts))).
Definition char_symbols (f : bytes) (o : Z) : outcome (list (Z * Z)) :=
  do size <- rd16 f (o + 2) ;;
  do segx2 <- rd16 f (o + 6) ;;
  let k := Z.to_nat (segx2 / 2) in
  let s := 2 * (segx2 / 2) in
  do ends <- omap (fun i => rd16 f (o + 14 + 2 * i)) (range 0 k) ;;
  do starts <- omap (fun i => rd16 f (o + 16 + s + 2 * i)) (range 0 k) ;;
  do deltas <- omap (fun i => rdi16 f (o + 16 + 2 * s + 2 * i)) (range 0 k) ;;
  do positions <- omap (fun i => rd16 f (o + 16 + 3 * s + 2 * i)) (range 0 k) ;;
  do l <- omap (fun n => segment_pairs f (o + size) (o + 16 + 3 * s) n starts ends deltas positions) (range 0 k) ;;
  Ret (List.concat l).
(** charSymbolDictionary[c]: the last pair entered *)
Definition char_symbol (pairs : list (Z * Z)) (c : Z) : option Z :=
  option_map snd (find (fun p => fst p =? c) (rev pairs)).

(** utf8fontfile.go:903-922 [parseLOCATable]; an unknown format leaves the list empty *)
Definition parse_loca (f : bytes) (dir : list (bytes * desc)) (format num : Z) : outcome (list Z) :=
  do start <- seek_table dir "loca" ;;
  if format =? 0 then
    do _ <- rd f start (num * 2 + 2) ;;
    omap (fun i => do v <- rd16 f (start + 2 * i) ;; Ret (v * 2)) (range 0 (Z.to_nat (num + 1)))
  else if format =? 1 then
    do _ <- rd f start (num * 4 + 4) ;;
    omap (fun i => rd32 f (start + 4 * i)) (range 0 (Z.to_nat (num + 1)))
  else Ret [].
(** symbolPosition[i] *)
Definition loc (locs : list Z) (i : Z) : outcome Z :=
  if i <? 0 then Panic else match nth_error locs (Z.to_nat i) with Some v => Ret v | None => Panic end.

(** utf8fontfile.go:793-832 [getSymbols] on the maps symbolSet and SymbolsCollection and the slice
    SymbolsCollectionKeys; [begin] is the place of the table glyf *)
Record symbols := { y_set : list (Z * Z); y_coll : list Z; y_keys : list Z }.
Definition index_of (set : list (Z * Z)) (g : Z) : option Z := option_map snd (find (fun p => fst p =? g) set).
(** utf8fontfile.go:809-813 *)
Definition add_symbol (g : Z) (y : symbols) : symbols :=
  match index_of (y_set y) g with
  | Some _ => y
  | None => {| y_set := (g, Z.of_nat (List.length (y_coll y))) :: y_set y; y_coll := g :: y_coll y; y_keys := y_keys y ++ [g] |}
  end.
Definition flag (flags bit : Z) : bool := negb (Z.land flags bit =? 0).
(** utf8fontfile.go:817-828, 743-756: what follows the flags and the glyph of a component *)
Definition after_component (flags : Z) : Z :=
  (if flag flags 1 then 4 else 2) +
  (if flag flags 8 then 2 else if flag flags 64 then 4 else if flag flags 128 then 8 else 0).
Fixpoint get_symbols (fuel : nat) (f : bytes) (locs : list Z) (begin g : Z) (y : symbols) {struct fuel} : outcome symbols :=
  match fuel with
  | O => OutOfFuel
  | S fuel =>
      do p <- loc locs g ;;
      do q <- loc locs (g + 1) ;;
      if q - p =? 0 then Ret y
      else
        do lines <- rdi16 f (begin + p) ;;
        if lines <? 0 then get_components fuel f locs begin (begin + p + 10) y else Ret y
  end
with get_components (fuel : nat) (f : bytes) (locs : list Z) (begin p : Z) (y : symbols) {struct fuel} : outcome symbols :=
  match fuel with
  | O => OutOfFuel
  | S fuel =>
      do flags <- rd16 f p ;;
      do g <- rd16 f (p + 2) ;;
      do y <- get_symbols fuel f locs begin g (add_symbol g y) ;;
      if flag flags 32 then get_components fuel f locs begin (p + 4 + after_component flags) y else Ret y
  end.

(** utf8fontfile.go:531-568 [parseSymbols]; [used] are the values of usedRunes in any order *)
Fixpoint dedup (l : list Z) : list Z :=
  match l with
  | [] => []
  | a :: t => if existsb (Z.eqb a) t then dedup t else a :: dedup t
  end.
Definition zsort (l : list Z) : list Z := sort_by Z.ltb l.
Fixpoint get_all (fuel : nat) (f : bytes) (locs : list Z) (begin : Z) (l : list Z) (y : symbols) : outcome symbols :=
  match l with
  | [] => Ret y
  | g :: t => do y <- get_symbols fuel f locs begin g y ;; get_all fuel f locs begin t y
  end.
Definition found_pairs (dict : list (Z * Z)) (used : list Z) : list (Z * Z) :=
  flat_map (fun c => match char_symbol dict c with Some g => [(c, g)] | None => [] end) (dedup used).
Definition parse_symbols (fuel : nat) (f : bytes) (dir : list (bytes * desc)) (locs : list Z) (dict : list (Z * Z)) (used : list Z)
  : outcome (list (Z * Z) * symbols * Z) :=
  let found := found_pairs dict used in
  let last := fold_left Z.max used 0 in
  do begin <- seek_table dir "glyf" ;;
  let keys := zsort (dedup (0 :: map snd found)) in
  let set := combine keys (range 0 (List.length keys)) in
  let runes := map (fun p => (fst p, match index_of set (snd p) with Some i => i | None => 0 end)) found in
  do y <- get_all fuel f locs begin keys {| y_set := set; y_coll := keys; y_keys := keys |} ;;
  Ret (runes, y, last).

(** the bytes [v] written over those at [p] *)
Definition overwrite (f : bytes) (p : Z) (v : bytes) : bytes :=
  firstn (Z.to_nat p) f ++ v ++ skipn (Z.to_nat p + List.length v) f.
(** utf8fontfile.go:888-901 [getMetrics].  The append at line 898 has room behind the two bytes it
    extends: it writes them into the font file *)
Definition get_metrics (f : bytes) (dir : list (bytes * desc)) (count g : Z) : outcome (bytes * bytes) :=
  do start <- seek_table dir "hmtx" ;;
  if g <? count then
    do m <- rd f (start + g * 4) 4 ;; Ret (m, f)
  else
    let p := start + (count - 1) * 4 in
    do a <- rd f p 2 ;;
    do b <- rd f (start + count * 2 + g * 2) 2 ;;
    Ret (a ++ b, if p + 4 <=? Z.of_nat (List.length f) then overwrite f (p + 2) b else f).

(** utf8fontfile.go:721-757: the glyphs of a composite glyph get their new numbers *)
Fixpoint renumber (fuel : nat) (set : list (Z * Z)) (data : bytes) (p : Z) : outcome bytes :=
  match fuel with
  | O => OutOfFuel
  | S fuel =>
      do flags <- rd16 data p ;;
      do g <- rd16 data (p + 2) ;;
      do data <- insert_u16 data (p + 2) (match index_of set g with Some i => i | None => 0 end) ;;
      if flag flags 32 then renumber fuel set data (p + 4 + after_component flags) else Ret data
  end.
(** utf8fontfile.go:711-758: the data of one glyph; a table glyf of size 0 is an empty slice *)
Definition glyph_data (f : bytes) (begin : Z) (locs : list Z) (set : list (Z * Z)) (g : Z) : outcome bytes :=
  do p <- loc locs g ;;
  do q <- loc locs (g + 1) ;;
  do data <- rd f (begin + p) (q - p) ;;
  do up <- (if 0 <? q - p then rd16 data 0 else Ret 0) ;;
  if (2 <? q - p) && (32768 <=? up) then renumber (List.length data) set data 10 else Ret data.
(** utf8fontfile.go:706-766: the loop over the glyphs *)
Record glyphs := { g_offsets : list Z; g_glyf : bytes; g_pos : Z; g_hmtx : bytes; g_file : bytes }.
Definition put_glyph (dir : list (bytes * desc)) (count : Z) (whole : bool) (begin : Z) (locs : list Z) (set : list (Z * Z)) (g : Z) (s : glyphs) : outcome glyphs :=
  do m <- get_metrics (g_file s) dir count g ;;
  let (hm, f) := m in
  do data <- (if whole then glyph_data f begin locs set g else glyph_data [] 0 locs set g) ;;
  let pos := g_pos s + Z.of_nat (List.length data) in
  let pad := if pos mod 4 =? 0 then 0 else 4 - pos mod 4 in
  Ret {| g_offsets := g_offsets s ++ [g_pos s]; g_glyf := g_glyf s ++ data ++ repeat 0 (Z.to_nat pad); g_pos := pos + pad;
         g_hmtx := g_hmtx s ++ hm; g_file := f |}.
Fixpoint put_glyphs (dir : list (bytes * desc)) (count : Z) (whole : bool) (begin : Z) (locs : list Z) (set : list (Z * Z)) (l : list Z) (s : glyphs) : outcome glyphs :=
  match l with
  | [] => Ret s
  | g :: t => do s <- put_glyph dir count whole begin locs set g s ;; put_glyphs dir count whole begin locs set t s
  end.

(** utf8fontfile.go:250-258 [setOutTable] *)
Definition out_table (name : string) (data : option bytes) : outcome (list (bytes * bytes)) :=
  match data with
  | None => Ret []
  | Some b => do b <- clear_head (bs name) b ;; Ret [(bs name, b)]
  end.
(** utf8fontfile.go:217-226: a change of a table that may be missing *)
Definition patch (data : option bytes) (o v : Z) : outcome (option bytes) :=
  do b <- insert_u16 (match data with Some b => b | None => [] end) o v ;; Ret (Some b).
(** utf8fontfile.go:687-689: the table post in version 3 *)
Definition cut_post (data : option bytes) : outcome bytes :=
  match data with
  | None => Panic
  | Some b => match slice b 4 16 with Some m => Ret ([0; 3; 0; 0] ++ m ++ repeat 0 16) | None => Panic end
  end.
(** utf8fontfile.go:771-783: the table loca and its format *)
Definition cut_loca (offsets : list Z) (pos : Z) : Z * bytes :=
  if 65535 <? (pos + 1) / 2 then (1, flat_map pack32 offsets) else (0, flat_map (fun o => pack16 (o / 2)) offsets).

Record cut := { c_font : bytes; c_runes : list (Z * Z); c_last : Z; c_file : bytes }.
(** utf8fontfile.go:639-791 [GenerateCutFont]; None: no font, since there is no character map *)
Definition cut_font (fuel : nat) (f : bytes) (used : list Z) : outcome (option cut) :=
  do dir <- read_dir f ;;
  do head <- seek_table dir "head" ;;
  do format <- rd16 f (head + 50) ;;
  do hhea <- seek_table dir "hhea" ;;
  do count <- rd16 f (hhea + 34) ;;
  do maxp <- seek_table dir "maxp" ;;
  do num <- rd16 f (maxp + 4) ;;
  do o <- cmap_position f dir ;;
  match o with
  | None => Ret None
  | Some o =>
      do dict <- char_symbols f o ;;
      do hmtx <- seek_table dir "hmtx" ;;
      do _ <- rd f hmtx (count * 4) ;;
      do locs <- parse_loca f dir format num ;;
      do r <- parse_symbols fuel f dir locs dict used ;;
      let '(runes, y, last) := r in
      let n := Z.of_nat (List.length (y_coll y)) in
      do post <- table_data f dir "post" ;;
      do post <- cut_post post ;;
      let runes := filter (fun p => negb (fst p =? 0)) runes in
      do cmap <- cmap_table runes n ;;
      do begin <- seek_table dir "glyf" ;;
      do glyf <- table_data f dir "glyf" ;;
      do s <- put_glyphs dir count (match glyf with Some _ => true | None => false end) begin locs (y_set y) (y_keys y) {| g_offsets := []; g_glyf := []; g_pos := 0; g_hmtx := []; g_file := f |} ;;
      let offsets := g_offsets s ++ [g_pos s] in
      let (format, loca) := cut_loca offsets (g_pos s) in
      let f := g_file s in
      do copied <- omap (fun name => do t <- table_data f dir name ;; out_table name t) ["name"; "cvt "; "fpgm"; "prep"; "gasp"; "OS/2"]%string ;;
      do head <- table_data f dir "head" ;; do head <- patch head 50 format ;; do head <- out_table "head" head ;;
      do hhea <- table_data f dir "hhea" ;; do hhea <- patch hhea 34 n ;; do hhea <- out_table "hhea" hhea ;;
      do maxp <- table_data f dir "maxp" ;; do maxp <- patch maxp 4 n ;; do maxp <- out_table "maxp" maxp ;;
      do font <- assemble (List.concat copied ++ [(bs "post", post); (bs "cmap", cmap); (bs "glyf", g_glyf s); (bs "hmtx", g_hmtx s); (bs "loca", loca)]
                           ++ head ++ hhea ++ maxp) ;;
      Ret (Some {| c_font := font; c_runes := runes; c_last := last; c_file := f |})
  end.
