(** C93: code page maps from text: lines, fmt.Sscanf, files. *)
From Verif Require Import Base TextModel.
From Coq Require Import String.
Open Scope Z_scope.
Notation length := List.length.
Local Notation "a +++ b" := (List.app a b) (at level 60, right associativity, only parsing).

(** util.go:217-218 (UnicodeTranslator), bufio.Scanner with bufio.ScanLines: lines end with LF, a CR before it is dropped; the scanner stops,
    without telling, at a line of 65536 bytes or more ([n] bytes of the line have been read, [cur] in reverse) *)
Definition drop_cr (r : bytes) : bytes := match r with c :: t => if c =? 13 then rev t else rev r | [] => [] end.
Fixpoint map_lines_from (n : Z) (cur s : bytes) : list bytes :=
  if 65536 <=? n then []
  else match s with
       | [] => match cur with [] => [] | _ => [drop_cr cur] end
       | c :: s => if c =? 10 then drop_cr cur :: map_lines_from 0 [] s else map_lines_from (n + 1) (c :: cur) s
       end.
Definition map_lines (s : bytes) : list bytes := map_lines_from 0 [] s.

(** util.go:220 (UnicodeTranslator): the spaces of strings.TrimSpace and of package fmt *)
Definition is_space (r : Z) : bool :=
  ((9 <=? r) && (r <=? 13)) || (r =? 32) || (r =? 133) || (r =? 160) || (r =? 5760) || ((8192 <=? r) && (r <=? 8202)) ||
  (r =? 8232) || (r =? 8233) || (r =? 8239) || (r =? 8287) || (r =? 12288).
Fixpoint skip_space (rs : list Z) : list Z := match rs with r :: t => if is_space r then skip_space t else rs | [] => [] end.
Definition trim_space (rs : list Z) : list Z := rev (skip_space (rev (skip_space rs))).

(** util.go:222 (UnicodeTranslator), verb X of fmt.Sscanf: at least one hexadecimal digit, at most [w] *)
Definition hex_value (r : Z) : option Z :=
  if (48 <=? r) && (r <=? 57) then Some (r - 48) else if (65 <=? r) && (r <=? 70) then Some (r - 55) else if (97 <=? r) && (r <=? 102) then Some (r - 87) else None.
Fixpoint digits (w : nat) (v : Z) (rs : list Z) : Z * list Z :=
  match w, rs with
  | S w, r :: t => match hex_value r with Some d => digits w (16 * v + d) t | None => (v, rs) end
  | _, _ => (v, rs)
  end.
Definition scan_hex (w : nat) (rs : list Z) : option (Z * list Z) :=
  match skip_space rs with
  | r :: t => match hex_value r with Some d => Some (digits (Nat.pred w) d t) | None => None end
  | [] => None
  end.
(** util.go:222 (UnicodeTranslator), a space in the format: at least one space, or the end of the line *)
Definition scan_space (rs : list Z) : option (list Z) := match rs with [] => Some [] | r :: t => if is_space r then Some (skip_space t) else None end.
Definition scan_char (c : Z) (rs : list Z) : option (list Z) := match rs with r :: t => if r =? c then Some t else None | [] => None end.
(** util.go:222 (UnicodeTranslator): fmt.Sscanf(line, "!%2X U+%4X %s"); what follows the name is not looked at *)
Definition scan_line (rs : list Z) : option (Z * Z) :=
  match scan_char 33 rs with
  | None => None
  | Some rs =>
      match scan_hex 2 rs with
      | None => None
      | Some (c, rs) =>
          match scan_space rs with
          | None => None
          | Some rs =>
              match scan_char 85 rs with
              | None => None
              | Some rs =>
                  match scan_char 43 rs with
                  | None => None
                  | Some rs =>
                      match scan_hex 4 rs with
                      | None => None
                      | Some (u, rs) =>
                          match scan_space rs with
                          | None => None
                          | Some rs => match skip_space rs with [] => None | _ => Some (c, u) end
                          end
                      end
                  end
              end
          end
      end
  end.
(** util.go:219-228 (UnicodeTranslator) *)
Definition parse_line (l : bytes) : option (option (Z * Z)) :=
  match trim_space (go_runes l) with
  | [] => Some None
  | rs => match scan_line rs with Some p => Some (Some p) | None => None end
  end.

(** util.go:213-236 [UnicodeTranslator], on the text of the descriptor *)
Definition translator_of (file : bytes) : (bytes -> bytes) * bool := unicode_translator bytes parse_line (map_lines file).
(** util.go:245-255 [UnicodeTranslatorFromFile]; [None]: the file cannot be opened *)
Definition translator_from_file (file : option bytes) : (bytes -> bytes) * bool :=
  match file with Some s => translator_of s | None => (fun s => s, true) end.
(** util.go:271-290 [UnicodeTranslatorFromDescriptor]: [embedded] are the maps of the package, [file] what the files of the font directory
    hold, [err] whether the document has an error; the result is the function and the error afterwards *)
Definition translator_from_descriptor (embedded file : bytes -> option bytes) (err : bool) (cp : bytes) : (bytes -> bytes) * bool :=
  if err then (fun s => s, true)
  else let cp := match cp with [] => bs "cp1252" | _ => cp end in
       match embedded cp with
       | Some s => translator_of s
       | None => translator_from_file (file (cp +++ bs ".map"))
       end.
