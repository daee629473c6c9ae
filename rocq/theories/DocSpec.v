(** Reading a PDF file back: the small part of ISO 32000-1 section 7.5 that the
    document theorems are stated with.  Nothing here refers to the model. *)
From Verif Require Import Base.
From Coq Require Import String.
Open Scope Z_scope.
Notation length := List.length.

Definition zlength (s : bytes) : Z := Z.of_nat (length s).
Definition eol : bytes := [10].

(** at byte offset [off] of the file the bytes [s] are found *)
Definition found_at (file : bytes) (off : Z) (s : bytes) : Prop :=
  0 <= off /\ exists rest, skipn (Z.to_nat off) file = s ++ rest.

(** 7.5.5: the last lines of the file are startxref, a number, %%EOF *)
Definition startxref (file : bytes) (x : Z) : Prop :=
  exists a, file = a ++ bs "startxref" ++ eol ++ dec x ++ eol ++ bs "%%EOF" ++ eol.

(** 7.5.4: an entry has 20 bytes: ten digits, space, five digits, space, n or f,
    space, line feed *)
Fixpoint digits (k : nat) (acc : Z) (s : bytes) : option (Z * bytes) :=
  match k, s with
  | O, _ => Some (acc, s)
  | S k', c :: t => if is_digit c then digits k' (acc * 10 + (c - 48)) t else None
  | S _, [] => None
  end.
Inductive entry := InUse (off gen : Z) | Free (next gen : Z).
Definition read_entry (s : bytes) : option (entry * bytes) :=
  match digits 10 0 s with
  | Some (off, 32 :: s1) =>
      match digits 5 0 s1 with
      | Some (gen, 32 :: 110 :: 32 :: 10 :: r) => Some (InUse off gen, r)
      | Some (gen, 32 :: 102 :: 32 :: 10 :: r) => Some (Free off gen, r)
      | _ => None
      end
  | _ => None
  end.
Fixpoint read_entries (k : nat) (s : bytes) : option (list entry * bytes) :=
  match k with
  | O => Some ([], s)
  | S k' => match read_entry s with
            | Some (e, r) => match read_entries k' r with
                             | Some (l, r') => Some (e :: l, r')
                             | None => None end
            | None => None end
  end.
Definition strip (p s : bytes) : option bytes := if prefixb p s then Some (skipn (length p) s) else None.
(** a cross-reference section with one subsection starting at object 0 *)
Definition read_table (s : bytes) : option (list entry * bytes) :=
  match strip (bs "xref" ++ eol ++ bs "0 ") s with
  | Some s1 => match read_dec s1 with
               | Some (count, 10 :: s2) => read_entries (Z.to_nat count) s2
               | _ => None end
  | None => None
  end.

(** the number after the first /Length key of a dictionary *)
Fixpoint declared_length (s : bytes) : option Z :=
  if prefixb (bs "/Length ") s
  then match read_dec (skipn 8 s) with Some (n, _) => Some n | None => None end
  else match s with [] => None | _ :: t => declared_length t end.

(** body of a stream object: its dictionary declares the number of data bytes *)
Definition stream_body (body data : bytes) : Prop :=
  exists dict, body = dict ++ bs "stream" ++ eol ++ data ++ eol ++ bs "endstream" ++ eol
               /\ declared_length dict = Some (zlength data).

(** an indirect object *)
Definition object_text (k : Z) (body : bytes) : bytes :=
  dec k ++ bs " 0 obj" ++ eol ++ body ++ bs "endobj" ++ eol.

(** the object with number k, looked up through the cross-reference table *)
Definition object_in (file : bytes) (k : Z) (body : bytes) : Prop :=
  exists x entries rest off,
    startxref file x /\
    read_table (skipn (Z.to_nat x) file) = Some (entries, rest) /\
    1 <= k /\ nth_error entries (Z.to_nat k) = Some (InUse off 0) /\
    found_at file off (object_text k body).

(** [l] occurs in [s] *)
Definition occurs (l s : bytes) : Prop := exists a b, s = a ++ l ++ b.

(** blank lines *)
Definition blank (s : bytes) : Prop := Forall (fun c => c = 10) s.
(** an indirect object with the blank lines that may follow it *)
Definition object_block (k : Z) (s : bytes) : Prop := exists body ws, s = object_text k body ++ ws /\ blank ws.

(** the file consists of [head], the blocks of the objects listed in [nums], in that order,
    and [tail] *)
Inductive blocks : list Z -> bytes -> Prop :=
| blocks_nil : blocks [] []
| blocks_cons k ks s t : object_block k s -> blocks ks t -> blocks (k :: ks) (s ++ t).

(** object k is a stream with the given data bytes *)
Definition stream_in (file : bytes) (k : Z) (data : bytes) : Prop :=
  exists body, object_in file k body /\ stream_body body data.

(** text that cannot be confused with the start of a Length entry when printed
    into a dictionary *)
Definition plain (s : bytes) : Prop := hd 0 s <> 76 /\ forall a b, s <> a ++ bs "/L" ++ b.

(** the objects named in a list of references, as in an array *)
Definition refs (ks : list Z) : bytes := List.concat (map (fun k => dec k ++ bs " 0 R ") ks).

(** the page tree: object 1, listing the page objects [kids] in order *)
Definition page_tree (file : bytes) (kids : list Z) : Prop :=
  exists t, object_in file 1 (bs "<</Type /Pages" ++ eol ++ bs "/Kids [" ++ refs kids ++ bs "]" ++ eol ++
                              bs "/Count " ++ dec (Z.of_nat (length kids)) ++ eol ++ t).
(** object k is a page of that tree; [t] are its other entries and object [c] its content *)
Definition page_object (file : bytes) (k : Z) (t : bytes) (c : Z) : Prop :=
  object_in file k (bs "<</Type /Page" ++ eol ++ bs "/Parent 1 0 R" ++ eol ++ t ++ bs "/Contents " ++ dec c ++ bs " 0 R>>" ++ eol).
(** a destination in page object k *)
Definition dest (k : Z) : bytes := bs "/Dest [" ++ dec k ++ bs " 0 R".
(** a line of a dictionary with a reference; nothing for -1 *)
Definition opt_ref (key : bytes) (base x : Z) : bytes :=
  if x =? -1 then [] else key ++ dec (base + x) ++ bs " 0 R" ++ eol.
