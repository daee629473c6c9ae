(** Specifications for the string codecs, written from ISO 32000-1 and the
    Unicode standard, independent of the code. *)
From Verif Require Import Base.

(** ISO 32000-1, 7.3.4.2: body of a literal string after the opening
    parenthesis; [depth] counts open nested parentheses.  Returns the decoded
    bytes and what follows the closing parenthesis. *)
Definition is_octal (c : Z) : bool := (48 <=? c) && (c <=? 55).
Definition cons_res (c : Z) (r : option (bytes * bytes)) : option (bytes * bytes) :=
  match r with Some (s, t) => Some (c :: s, t) | None => None end.

Fixpoint read_literal (depth : nat) (s : bytes) : option (bytes * bytes) :=
  match s with
  | [] => None
  | c :: t =>
      if c =? 92 then           (* reverse solidus *)
        match t with
        | [] => None
        | e :: t2 =>
            if e =? 110 then cons_res 10 (read_literal depth t2)
            else if e =? 114 then cons_res 13 (read_literal depth t2)
            else if e =? 116 then cons_res 9 (read_literal depth t2)
            else if e =? 98 then cons_res 8 (read_literal depth t2)
            else if e =? 102 then cons_res 12 (read_literal depth t2)
            else if e =? 13 then (* line continuation *)
              match t2 with
              | l :: t3 => if l =? 10 then read_literal depth t3 else read_literal depth t2
              | [] => None
              end
            else if e =? 10 then read_literal depth t2
            else if is_octal e then
              match t2 with
              | e2 :: t3 =>
                  if is_octal e2 then
                    match t3 with
                    | e3 :: t4 =>
                        if is_octal e3
                        then cons_res (((e - 48) * 64 + (e2 - 48) * 8 + (e3 - 48)) mod 256) (read_literal depth t4)
                        else cons_res ((e - 48) * 8 + (e2 - 48)) (read_literal depth t3)
                    | [] => None
                    end
                  else cons_res (e - 48) (read_literal depth t2)
              | [] => None
              end
            else cons_res e (read_literal depth t2)  (* parentheses, \\, and ignored \ *)
        end
      else if c =? 40 then cons_res 40 (read_literal (S depth) t)
      else if c =? 41 then
        match depth with
        | O => Some ([], t)
        | S d => cons_res 41 (read_literal d t)
        end
      else if c =? 13 then      (* end-of-line marker is read as LF *)
        match t with
        | l :: t2 => if l =? 10 then cons_res 10 (read_literal depth t2)
                     else cons_res 10 (read_literal depth t)
        | [] => None
        end
      else cons_res c (read_literal depth t)
  end.

(** A PDF literal string object at the head of the input. *)
Definition read_string (s : bytes) : option (bytes * bytes) :=
  match s with
  | c :: t => if c =? 40 then read_literal 0 t else None
  | [] => None
  end.

(** Unicode scalar values and the two encodings. *)
Definition scalar (r : Z) : Prop := 0 <= r < 55296 \/ 57344 <= r <= 1114111.

Definition utf8_1 (r : Z) : bytes :=
  if r <? 128 then [r]
  else if r <? 2048 then [192 + r / 64; 128 + r mod 64]
  else if r <? 65536 then [224 + r / 4096; 128 + r / 64 mod 64; 128 + r mod 64]
  else [240 + r / 262144; 128 + r / 4096 mod 64; 128 + r / 64 mod 64; 128 + r mod 64].
Definition utf8 (t : list Z) : bytes := flat_map utf8_1 t.

Definition utf16be_1 (r : Z) : bytes :=
  if r <? 65536 then [r / 256; r mod 256]
  else let v := r - 65536 in
       let hi := 55296 + v / 1024 in
       let lo := 56320 + v mod 1024 in
       [hi / 256; hi mod 256; lo / 256; lo mod 256].
Definition utf16be (t : list Z) : bytes := flat_map utf16be_1 t.
