(** What a font definition must say, and what encodings, differences, metric files and binary Type1 fonts mean. *)
From Verif Require Import Base TtfSpec CutSpec FontSpec.
From Coq Require Import String.
Open Scope Z_scope.
Notation length := List.length.

(** ** Encoding files: one line for each code, with its character and its name; the last line for a code counts *)
Definition line : Type := bytes * (Z * Z * bytes).   (* the text; code, character, name *)
Definition map_text (ls : list line) : bytes := flat_map (fun l => fst l ++ [10]) ls.
Definition plain_text (t : bytes) : Prop := forall c, In c t -> c <> 10 /\ c <> 13.
(** [scan] reads one line *)
Definition sound_lines (scan : bytes -> option (Z * Z * bytes)) (ls : list line) : Prop :=
  Forall (fun l => plain_text (fst l) /\ scan (fst l) = Some (snd l) /\ let '(c, _, _) := snd l in 0 <= c < 256) ls.
(** the name and the character of a code *)
Definition encoded (ls : list line) (j : Z) : bytes * Z :=
  fold_left (fun e (l : line) => let '(c, u, n) := snd l in if c =? j then (n, u) else e) ls (bs ".notdef", -1).
Definition name_at (ls : list line) (j : Z) : bytes := fst (encoded ls j).

(** ** Differences (PDF 32000, 9.6.6.1): a number begins a run, each name is the next code's *)
Fixpoint words_from (cur s : bytes) : list bytes :=
  match s with
  | [] => match cur with [] => [] | _ => [rev cur] end
  | c :: s => if c =? 32 then match cur with [] => words_from [] s | _ => rev cur :: words_from [] s end else words_from (c :: cur) s
  end.
Definition words (s : bytes) : list bytes := words_from [] s.
Fixpoint applied (ws : list bytes) (code : Z) (names : Z -> bytes) : Z -> bytes :=
  match ws with
  | [] => names
  | w :: ws =>
      match w with
      | c :: n => if c =? 47 then applied ws (code + 1) (fun j => if j =? code then n else names j)
                  else match read_dec w with Some (c, _) => applied ws c names | None => names end
      | [] => names
      end
  end.
(** the characters a name can have in a PDF file without escapes (PDF 32000, 7.2.2) *)
Definition regular (c : Z) : Prop := 33 <= c <= 126 /\ ~ In c (bs "()<>[]{}/%#").
Definition regular_name (n : bytes) : Prop := n <> [] /\ Forall regular n.

(** ** Adobe font metrics *)
Inductive afm_item :=
| Metric (code width : Z) (name : bytes) (more : list bytes)
| Number (key : bytes) (v : Z)
| Decimal (key : bytes) (v : Z) (digits : bytes)
| Word (key v : bytes)
| Box (a b c d : Z)
| Other (ws : list bytes).
Definition number_keys : list bytes := map bs ["ItalicAngle"; "Ascender"; "Descender"; "UnderlineThickness"; "UnderlinePosition"; "CapHeight"; "StdVW"]%string.
Definition word_keys : list bytes := map bs ["FontName"; "Weight"; "IsFixedPitch"]%string.
Definition item_words (i : afm_item) : list bytes :=
  match i with
  | Metric c w n more => [bs "C"; dec c; bs ";"; bs "WX"; dec w; bs ";"; bs "N"; n; bs ";"] ++ more
  | Number k v => [k; dec v]
  | Decimal k v ds => [k; dec v ++ 46 :: ds]
  | Word k v => [k; v]
  | Box a b c d => [bs "FontBBox"; dec a; dec b; dec c; dec d]
  | Other ws => ws
  end.
Definition word_ok (w : bytes) : Prop := w <> [] /\ Forall (fun c => 33 <= c <= 126) w.
Definition small (v : Z) : Prop := - 2 ^ 63 <= v < 2 ^ 63.
Definition item_ok (i : afm_item) : Prop :=
  Forall word_ok (item_words i) /\
  match i with
  | Metric _ w _ _ => small w
  | Number k v => In k number_keys /\ small v
  | Decimal k v ds => In k number_keys /\ small v /\ ds <> [] /\ Forall (fun c => is_digit c = true) ds
  | Word k _ => In k word_keys
  | Box a b c d => small a /\ small b /\ small c /\ small d
  | Other ws => match ws with [] => True | k :: _ => ~ In k (bs "C" :: bs "FontBBox" :: number_keys ++ word_keys) end
  end.
Fixpoint joined (ws : list bytes) : bytes := match ws with [] => [] | [w] => w | w :: ws => w ++ 32 :: joined ws end.
Definition afm_text (l : list afm_item) : bytes := flat_map (fun i => joined (item_words i) ++ [10]) l.
(** the values in it: the last one for a key counts *)
Definition number_in (l : list afm_item) (key : string) : Z := fold_left (fun x i => match i with Number k v => if beqb k (bs key) then v else x | _ => x end) l 0.
Definition word_in (l : list afm_item) (key : string) : bytes := fold_left (fun x i => match i with Word k v => if beqb k (bs key) then v else x | _ => x end) l [].
Definition box_in (l : list afm_item) : Z * Z * Z * Z := fold_left (fun x i => match i with Box a b c d => (a, b, c, d) | _ => x end) l (0, 0, 0, 0).
Definition width_in (l : list afm_item) (name : bytes) : option Z := fold_left (fun x i => match i with Metric _ w n _ => if beqb n name then Some w else x | _ => x end) l None.

(** the words for a bold font, in any case *)
Definition ascii_lower (s : bytes) : bytes := map (fun c => if (65 <=? c) && (c <=? 90) then c + 32 else c) s.
Definition bold_word (w : bytes) : Prop := In (ascii_lower w) [bs "bold"; bs "black"].
(** the name of a file: the directory, the name without and with its extension *)
Definition file_name (dir base ext name : bytes) : Prop :=
  name = dir ++ base ++ 46 :: ext /\ (dir = [] \/ exists d, dir = d ++ [47]) /\ ~ In 47 base /\ ~ In 47 ext /\ ~ In 46 ext.
(** ** Binary Type1 fonts: segments with a type and a length *)
Definition le32 (n : Z) : bytes := [n mod 256; n / 256 mod 256; n / 65536 mod 256; n / 16777216 mod 256].
Definition pfb_segment (t : Z) (d : bytes) : bytes := 128 :: t :: le32 (len d) ++ d.
