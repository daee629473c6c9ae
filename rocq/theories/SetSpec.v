(** Specification for C84: how a reader gets the texts, dates, view and script of a document, and what the caller asked for. *)
From Coq Require Import String.
From Verif Require Import Base TextSpec.
Open Scope Z_scope.
Notation length := List.length.

(** ** A dictionary whose values are strings (ISO 32000-1, 7.3.7) *)
Definition is_white (c : Z) : bool := existsb (Z.eqb c) [0; 9; 10; 12; 13; 32].
Definition is_delimiter (c : Z) : bool := existsb (Z.eqb c) (bs "()<>[]{}/%").
Fixpoint skip_white (s : bytes) : bytes := match s with c :: t => if is_white c then skip_white t else s | [] => [] end.
Fixpoint read_name (s : bytes) : bytes * bytes :=
  match s with
  | c :: t => if is_white c || is_delimiter c then ([], s) else let (n, r) := read_name t in (c :: n, r)
  | [] => ([], [])
  end.
Fixpoint read_entries (fuel : nat) (s : bytes) : option (list (bytes * bytes)) :=
  match fuel with
  | O => None
  | S k =>
    match skip_white s with
    | c :: t =>
        if c =? 62 (* > *) then match t with c2 :: _ => if c2 =? 62 then Some [] else None | [] => None end
        else if c =? 47 (* / *) then
          let (n, r) := read_name t in
          match read_string (skip_white r) with
          | Some (v, r') => match read_entries k r' with Some m => Some ((n, v) :: m) | None => None end
          | None => None
          end
        else None
    | [] => None
    end
  end.
Definition read_dictionary (s : bytes) : option (list (bytes * bytes)) :=
  match skip_white s with
  | c :: c2 :: t => if (c =? 60) && (c2 =? 60) then read_entries (S (length t)) t else None
  | _ => None
  end.
Fixpoint entry (name : bytes) (m : list (bytes * bytes)) : option bytes :=
  match m with [] => None | (n, v) :: m => if beqb n name then Some v else entry name m end.

(** ** Text strings (7.9.2.2): UTF-16BE after a byte order mark, else bytes of the document encoding *)
Inductive text := Unicode (t : list Z) | Encoded (b : bytes).
Fixpoint read_utf16 (s : bytes) : option (list Z) :=
  match s with
  | [] => Some []
  | a :: b :: t =>
      let u := a * 256 + b in
      if (55296 <=? u) && (u <? 56320) then
        match t with
        | a2 :: b2 :: t2 =>
            let u2 := a2 * 256 + b2 in
            if (56320 <=? u2) && (u2 <? 57344)
            then match read_utf16 t2 with Some r => Some ((65536 + (u - 55296) * 1024 + (u2 - 56320)) :: r) | None => None end
            else None
        | _ => None
        end
      else if (56320 <=? u) && (u <? 57344) then None
      else match read_utf16 t with Some r => Some (u :: r) | None => None end
  | _ => None
  end.
Definition text_of (s : bytes) : option text :=
  match s with
  | a :: b :: t => if (a =? 254) && (b =? 255) then option_map Unicode (read_utf16 t) else Some (Encoded s)
  | _ => Some (Encoded s)
  end.
(** what the caller means by a string and its flag isUTF8: a Unicode text in UTF-8 (here within the Basic Multilingual Plane, see
    C04), or bytes that do not begin with a byte order mark *)
Inductive means : bytes -> bool -> text -> Prop :=
| means_utf8 (t : list Z) : Forall (fun r => scalar r /\ r < 65536) t -> means (utf8 t) true (Unicode t)
| means_bytes (b : bytes) : firstn 2 b <> [254; 255] -> means b false (Encoded b).
(** the reader sees the text; an empty one may be missing *)
Definition sees (v : option bytes) (t : text) : Prop :=
  match v with Some b => text_of b = Some t | None => t = Encoded [] end.

(** ** Dates (7.9.4): D:YYYYMMDDHHmmSS *)
Definition digits (s : bytes) : Z := fold_left (fun a c => a * 10 + (c - 48)) s 0.
Definition read_date (s : bytes) : option (list Z) :=
  match s with
  | a :: b :: t =>
      if (a =? 68) && (b =? 58) && (length t =? 14)%nat && forallb (fun c => (48 <=? c) && (c <=? 57)) t
      then Some [digits (firstn 4 t); digits (firstn 2 (skipn 4 t)); digits (firstn 2 (skipn 6 t));
                 digits (firstn 2 (skipn 8 t)); digits (firstn 2 (skipn 10 t)); digits (firstn 2 (skipn 12 t))]
      else None
  | _ => None
  end.

(** ** The last call of a kind *)
Fixpoint last_of {A B} (f : A -> option B) (h : list A) : option B :=
  match h with
  | [] => None
  | c :: h => match last_of f h with Some b => Some b | None => f c end
  end.
