(** PNG files (PNG specification, chapters 5, 6, 9 and 11): the chunks of a file,
    and how a stream of filtered rows is turned back into samples.  The second part
    is also what a PDF reader does for /Predictor 15. *)
From Verif Require Import Base.
From Coq Require Import String.
Open Scope Z_scope.
Notation length := List.length.

(** ** Filters, for samples of eight bits *)
(** the Paeth predictor of left [a], above [b] and upper left [c] *)
Definition paeth (a b c : Z) : Z :=
  let p := a + b - c in
  let pa := Z.abs (p - a) in let pb := Z.abs (p - b) in let pc := Z.abs (p - c) in
  if (pa <=? pb) && (pa <=? pc) then a else if pb <=? pc then b else c.
Definition predicted (ft a b c : Z) : Z :=
  if ft =? 1 then a else if ft =? 2 then b else if ft =? 3 then (a + b) / 2 else if ft =? 4 then paeth a b c else 0.
(** A row [xs] with filter type [ft] stands for the samples [raw], when the row
    above holds [prev] and a pixel has [ch] samples. *)
Definition at_left (ch : nat) (l : bytes) (i : nat) : Z := if (i <? ch)%nat then 0 else nth (i - ch) l 0.
Definition row_means (ch : nat) (ft : Z) (prev xs raw : bytes) : Prop :=
  length raw = length xs /\
  forall i, (i < length xs)%nat ->
    nth i raw 0 = (nth i xs 0 + predicted ft (at_left ch raw i) (nth i prev 0) (at_left ch prev i)) mod 256.
(** all rows; above the first row all samples count as zero *)
Inductive rows_mean (ch : nat) : bytes -> list (Z * bytes) -> list bytes -> Prop :=
| rm_nil prev : rows_mean ch prev [] []
| rm_cons prev ft xs raw rows raws : row_means ch ft prev xs raw -> rows_mean ch raw rows raws ->
    rows_mean ch prev ((ft, xs) :: rows) (raw :: raws).
(** the stream of the rows, before compression *)
Definition stream (rows : list (Z * bytes)) : bytes := flat_map (fun r => fst r :: snd r) rows.

(** ** Files *)
Definition be32 (n : Z) : bytes := [(n / 16777216) mod 256; (n / 65536) mod 256; (n / 256) mod 256; n mod 256].
Record chunk := { c_type : bytes; c_data : bytes; c_crc : bytes }.
Definition chunk_bytes (c : chunk) : bytes := be32 (Z.of_nat (length (c_data c))) ++ c_type c ++ c_data c ++ c_crc c.
Definition signature : bytes := [137; 80; 78; 71; 13; 10; 26; 10].
(** not interlaced; [tail] is what follows the type of the IEND chunk *)
Definition png_bytes (w h depth ct : Z) (hcrc : bytes) (chunks : list chunk) (tail : bytes) : bytes :=
  signature ++ chunk_bytes {| c_type := bs "IHDR"; c_data := be32 w ++ be32 h ++ [depth; ct; 0; 0; 0]; c_crc := hcrc |} ++
  flat_map chunk_bytes chunks ++ be32 0 ++ bs "IEND" ++ tail.
(** the data of the chunks of a type *)
Definition of_type (t : bytes) (chunks : list chunk) : list bytes := map c_data (filter (fun c => beqb (c_type c) t) chunks).
(** A chunk between IHDR and IEND.  A pHYs chunk has nine bytes; a tRNS chunk has
    two bytes for a gray image and six for one in colours. *)
Definition chunk_ok (ct : Z) (c : chunk) : Prop :=
  length (c_type c) = 4%nat /\ length (c_crc c) = 4%nat /\ Z.of_nat (length (c_data c)) < 2147483648 /\ c_type c <> bs "IEND" /\
  (c_type c = bs "pHYs" -> length (c_data c) = 9%nat) /\
  (c_type c = bs "tRNS" -> (ct = 0 -> length (c_data c) = 2%nat) /\ (ct = 2 -> length (c_data c) = 6%nat)).
(** samples of a pixel for each colour type *)
Definition channels (ct : Z) : option nat :=
  if ct =? 0 then Some 1%nat else if ct =? 2 then Some 3%nat else if ct =? 3 then Some 1%nat else if ct =? 4 then Some 2%nat else if ct =? 6 then Some 4%nat else None.
