(** Model of the string codecs: escaping of PDF literal strings, UTF-8 to
    UTF-16BE conversion, Go's decoding of strings into runes, text reversal
    and code page translation.
    Code: /repo/fpdf.go and /repo/util.go at the lines cited. *)
From Verif Require Import Base.
From Coq Require Import String.

(** fpdf.go:3584-3590 [escape]: four successive strings.Replace(.., -1). *)
Definition escape (s : bytes) : bytes :=
  let s := replace_all [92] [92; 92] s in   (* \ -> \\ *)
  let s := replace_all [40] [92; 40] s in   (* ( -> \( *)
  let s := replace_all [41] [92; 41] s in   (* ) -> \) *)
  replace_all [13] [92; 114] s.             (* CR -> \r *)

(** fpdf.go:3593-3600 [textstring] without encryption (the encrypted variant is
    in ProtectModel.v). *)
Definition textstring (s : bytes) : bytes := 40 :: escape s ++ [41].

(** fpdf.go:2457-2459, in CellFormat: the escaping used for text shown in a
    font that is not UTF-8 (three replacements, no CR). *)
Definition cell_escape (s : bytes) : bytes :=
  let s := replace_all [92] [92; 92] s in
  let s := replace_all [40] [92; 40] s in
  replace_all [41] [92; 41] s.

(** fpdf.go:2447-2463: the operand of Tj in CellFormat, "(" txt2 ")". *)
Definition cell_operand (utf8font : bool) (utf16 : bytes -> outcome bytes) (s : bytes) : outcome bytes :=
  if utf8font then obind (utf16 s) (fun t => Ret (40 :: escape t ++ [41]))
  else Ret (40 :: cell_escape s ++ [41]).

(** byte arithmetic wraps at 256 *)
Definition u8 (x : Z) : Z := x mod 256.

(** util.go:109-144 [utf8toutf16].  The index variable [i] becomes the rest of
    the string; reading s[i] past the end is the Go panic. *)
Fixpoint utf16_loop (s : bytes) : outcome bytes :=
  match s with
  | [] => Ret []
  | c1 :: s1 =>
      if 224 <=? c1 then
        match s1 with
        | c2 :: (c3 :: s3) =>
            obind (utf16_loop s3) (fun r =>
              Ret (u8 (u8 (Z.shiftl (Z.land c1 15) 4) + Z.shiftr (Z.land c2 60) 2)
                   :: u8 (u8 (Z.shiftl (Z.land c2 3) 6) + Z.land c3 63) :: r))
        | _ => Panic
        end
      else if 192 <=? c1 then
        match s1 with
        | c2 :: s2 =>
            obind (utf16_loop s2) (fun r =>
              Ret (Z.shiftr (Z.land c1 28) 2
                   :: u8 (u8 (Z.shiftl (Z.land c1 3) 6) + Z.land c2 63) :: r))
        | _ => Panic
        end
      else obind (utf16_loop s1) (fun r => Ret (0 :: c1 :: r))
  end.
Definition utf8toutf16 (s : bytes) (bom : bool) : outcome bytes :=
  obind (utf16_loop s) (fun r => Ret ((if bom then [254; 255] else []) ++ r)).

(** Go runtime: decoding of the first rune of a string (unicode/utf8
    DecodeRuneInString): (rune, width in bytes); an invalid sequence is
    (0xFFFD, 1).  Library behaviour, not in /repo; used by []rune(s) and by
    range over a string. *)
Definition cont (b : Z) : bool := (128 <=? b) && (b <=? 191).
Definition in_rng (lo hi b : Z) : bool := (lo <=? b) && (b <=? hi).
Definition decode_rune (s : bytes) : Z * nat :=
  match s with
  | [] => (65533, 0%nat)
  | b0 :: t =>
      if b0 <? 128 then (b0, 1%nat)
      else if in_rng 194 223 b0 then
        match t with
        | b1 :: _ => if cont b1 then ((b0 mod 32) * 64 + b1 mod 64, 2%nat) else (65533, 1%nat)
        | _ => (65533, 1%nat)
        end
      else if in_rng 224 239 b0 then
        let lo := if b0 =? 224 then 160 else 128 in
        let hi := if b0 =? 237 then 159 else 191 in
        match t with
        | b1 :: b2 :: _ =>
            if in_rng lo hi b1 && cont b2
            then ((b0 mod 16) * 4096 + (b1 mod 64) * 64 + b2 mod 64, 3%nat)
            else (65533, 1%nat)
        | _ => (65533, 1%nat)
        end
      else if in_rng 240 244 b0 then
        let lo := if b0 =? 240 then 144 else 128 in
        let hi := if b0 =? 244 then 143 else 191 in
        match t with
        | b1 :: b2 :: b3 :: _ =>
            if in_rng lo hi b1 && cont b2 && cont b3
            then ((b0 mod 8) * 262144 + (b1 mod 64) * 4096 + (b2 mod 64) * 64 + b3 mod 64, 4%nat)
            else (65533, 1%nat)
        | _ => (65533, 1%nat)
        end
      else (65533, 1%nat)
  end.

(** []rune(s): [skip] = bytes of the current rune still to pass over. *)
Fixpoint runes_from (s : bytes) (skip : nat) : list Z :=
  match s with
  | [] => []
  | _ :: t =>
      match skip with
      | S k => runes_from t k
      | O => let (r, w) := decode_rune s in r :: runes_from t (w - 1)
      end
  end.
Definition go_runes (s : bytes) : list Z := runes_from s 0.

(** Go runtime: string(rune) / string([]rune) encoding (utf8.EncodeRune):
    surrogates and out of range values are encoded as U+FFFD. *)
Definition encode_rune (r : Z) : bytes :=
  if (r <? 0) || (1114111 <? r) || ((55296 <=? r) && (r <=? 57343)) then [239; 191; 189]
  else if r <? 128 then [r]
  else if r <? 2048 then [192 + r / 64; 128 + r mod 64]
  else if r <? 65536 then [224 + r / 4096; 128 + (r / 64) mod 64; 128 + r mod 64]
  else [240 + r / 262144; 128 + (r / 4096) mod 64; 128 + (r / 64) mod 64; 128 + r mod 64].
Definition go_string (l : list Z) : bytes := flat_map encode_rune l.

(** fpdf.go:2498-2506 [reverseText]: newText[length-i] = r for each rune. *)
Definition reverse_text (s : bytes) : bytes := go_string (rev (go_runes s)).

(** Go map[rune]byte as an association list, latest binding first. *)
Definition rmap := list (Z * Z).
Fixpoint rmap_get (m : rmap) (k : Z) : option Z :=
  match m with
  | [] => None
  | (k', v) :: m' => if k =? k' then Some v else rmap_get m' k
  end.

(** util.go:177-196 [repClosure] *)
Definition rep_rune (m : rmap) (r : Z) : Z :=
  if r <? 128 then u8 r
  else match rmap_get m r with Some b => b | None => 46 end.
Definition rep_closure (m : rmap) (s : bytes) : bytes := map (rep_rune m) (go_runes s).

(** util.go:213-236 [UnicodeTranslator].  The scanner's lines are the input;
    [parse] stands for strings.TrimSpace + fmt.Sscanf(line,
    "!%2X U+%4X %s", ..): a non-blank line yields its two numbers or an error
    ([None]); blank lines ([Some None]) are skipped.  The result is the map
    and the value of [err] after the last line (true = error). *)
Section Translator.
  Variable line : Type.
  Variable parse : line -> option (option (Z * Z)).  (* None: Sscanf error; Some None: blank *)
  Fixpoint translator_loop (ls : list line) (m : rmap) (err : bool) : rmap * bool :=
    match ls with
    | [] => (m, err)
    | l :: ls' =>
        match parse l with
        | Some None => translator_loop ls' m err
        | None => translator_loop ls' m true
        | Some (Some (cpos, upos)) =>
            translator_loop ls' (if 128 <=? cpos then (upos, u8 cpos) :: m else m) false
        end
    end.
  (** (translation function, err <> nil) *)
  Definition unicode_translator (ls : list line) : (bytes -> bytes) * bool :=
    let (m, err) := translator_loop ls [] false in
    if err then ((fun s => s), true) else (rep_closure m, false).
End Translator.

(** util.go:448-454 [isChinese] *)
Definition is_chinese (r : Z) : bool := (19968 <=? r) && (r <=? 40869).

(** util.go:458-462 [fontFamilyEscape] *)
Definition font_family_escape (s : bytes) : bytes := replace_all [32] (bs "#20"%string) s.

(** fpdf.go:3602-3610 [blankCount] *)
Definition blank_count (s : bytes) : Z := fold_left (fun n c => if c =? 32 then n + 1 else n) s 0.
