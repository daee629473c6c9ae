(** C90: a small PDF reader (ISO 32000-1, 7.3, 7.5, 7.7.3).  It uses nothing but the bytes of the file: it finds the
    cross-reference table from the end of the file, the catalog from the trailer, the page tree from the catalog, each page
    from the tree and its content from the page.  Nothing here refers to the writer or to its model. *)
From Verif Require Import Base TextSpec DocSpec.
From Coq Require Import String.
Open Scope Z_scope.
Notation length := List.length.

Definition bind {A B} (o : option A) (f : A -> option B) : option B := match o with Some a => f a | None => None end.
Notation "x <- o ;; r" := (bind o (fun x => r)) (at level 100, o at level 60, right associativity).
Fixpoint all {A B} (f : A -> option B) (l : list A) : option (list B) :=
  match l with
  | [] => Some []
  | x :: l => match f x, all f l with Some y, Some r => Some (y :: r) | _, _ => None end
  end.

(** what follows the key in a dictionary, of which [s] is the rest: [nest] brackets are open ("<<" counts for two), or
    [str] parentheses of a string, and [esc] says whether the last character of the string was a backslash.  A key of the
    dictionary is one at nesting depth two: what is inside strings, arrays and inner dictionaries is passed over *)
Fixpoint seek (key : bytes) (nest str : nat) (esc : bool) (s : bytes) : option bytes :=
  match s with
  | [] => None
  | c :: t =>
      match str with
      | S str' =>
          if esc then seek key nest str false t
          else if c =? 92 then seek key nest str true t
          else if c =? 40 then seek key nest (S str) false t
          else if c =? 41 then seek key nest str' false t
          else seek key nest str false t
      | O =>
          if (nest =? 2)%nat && prefixb key s then Some (skipn (length key) s)
          else if c =? 40 then seek key nest 1 false t
          else if (c =? 60) || (c =? 91) then seek key (S nest) 0 false t
          else if (c =? 62) || (c =? 93) then match nest with S (S n) => seek key (S n) 0 false t | _ => None end
          else seek key nest 0 false t
      end
  end.
Definition entry_of (key : bytes) (s : bytes) : option bytes := if prefixb (bs "<<") s then seek key 0 0 false s else None.
(** what follows the dictionary *)
Fixpoint past (nest str : nat) (esc : bool) (s : bytes) : option bytes :=
  match s with
  | [] => None
  | c :: t =>
      match str with
      | S str' =>
          if esc then past nest str false t
          else if c =? 92 then past nest str true t
          else if c =? 40 then past nest (S str) false t
          else if c =? 41 then past nest str' false t
          else past nest str false t
      | O =>
          if c =? 40 then past nest 1 false t
          else if (c =? 60) || (c =? 91) then past (S nest) 0 false t
          else if (c =? 62) || (c =? 93) then match nest with S O => Some t | S n => past n 0 false t | O => None end
          else past nest 0 false t
      end
  end.

(** "k 0 R" *)
Definition reference (s : bytes) : option (Z * bytes) :=
  n <- read_dec s ;; r <- strip (bs " 0 R") (snd n) ;; Some (fst n, r).
(** references, each followed by a space, up to "]" *)
Fixpoint references (fuel : nat) (s : bytes) : option (list Z) :=
  match fuel with
  | O => None
  | S fuel => if prefixb (bs "]") s then Some []
              else n <- reference s ;; r <- strip (bs " ") (snd n) ;; l <- references fuel r ;; Some (fst n :: l)
  end.

(** the offset on the last line but one *)
Fixpoint upto_eol (s : bytes) : bytes := match s with c :: t => if c =? 10 then [] else c :: upto_eol t | [] => [] end.
Definition table_offset (file : bytes) : option Z :=
  r <- strip (rev (eol ++ bs "%%EOF" ++ eol)) (rev file) ;;
  n <- read_dec (rev (upto_eol r)) ;;
  _ <- strip (rev (bs "startxref" ++ eol)) (skipn (length (upto_eol r)) r) ;;
  Some (fst n).

(** an object, from its first byte on *)
Definition object_from (file : bytes) (table : list entry) (k : Z) : option bytes :=
  match nth_error table (Z.to_nat k) with
  | Some (InUse off 0) => strip (dec k ++ bs " 0 obj" ++ eol) (skipn (Z.to_nat off) file)
  | _ => None
  end.

(** white space *)
Fixpoint skip_white (s : bytes) : bytes := match s with c :: t => if (c =? 10) || (c =? 32) then skip_white t else s | [] => [] end.

Section Reader.
  (** decompression, and what undoes the encryption of the data of an object *)
  Variables (inflate : bytes -> option bytes) (unlock : Z -> bytes -> bytes).

  (** the data of a stream object *)
  Definition stream_data (file : bytes) (table : list entry) (k : Z) : option bytes :=
    s <- object_from file table k ;;
    l <- entry_of (bs "/Length ") s ;;
    n <- read_dec l ;;
    r <- past 0 0 false s ;;
    d <- strip (bs "stream" ++ eol) (skip_white r) ;;
    _ <- strip (eol ++ bs "endstream" ++ eol ++ bs "endobj" ++ eol) (skipn (Z.to_nat (fst n)) d) ;;
    let data := unlock k (firstn (Z.to_nat (fst n)) d) in
    match entry_of (bs "/Filter ") s with
    | None => Some data
    | Some f => if prefixb (bs "/FlateDecode ") f then inflate data else None
    end.
  Definition page_content (file : bytes) (table : list entry) (k : Z) : option bytes :=
    s <- object_from file table k ;;
    c <- entry_of (bs "/Contents ") s ;;
    n <- reference c ;;
    stream_data file table (fst n).
  (** the content of every page, in the order of the page tree *)
  Definition read_pages (file : bytes) : option (list bytes) :=
    x <- table_offset file ;;
    t <- read_table (skipn (Z.to_nat x) file) ;;
    trailer <- strip (bs "trailer" ++ eol) (snd t) ;;
    root <- entry_of (bs "/Root ") trailer ;;
    nr <- reference root ;;
    catalog <- object_from file (fst t) (fst nr) ;;
    pages <- entry_of (bs "/Pages ") catalog ;;
    np <- reference pages ;;
    tree <- object_from file (fst t) (fst np) ;;
    kids <- entry_of (bs "/Kids [") tree ;;
    ks <- references (length kids) kids ;;
    all (page_content file (fst t)) ks.
End Reader.

(** text without brackets, parentheses and slashes *)
Definition no_delimiter (s : bytes) : Prop := Forall (fun c => ~ In c (bs "()<>[]/")) s.
(** 14.11.2: the boxes of a page *)
Definition box_names : list bytes := [bs "MediaBox"; bs "CropBox"; bs "BleedBox"; bs "TrimBox"; bs "ArtBox"]%string.

(** C91: the value of an entry of the information dictionary; [Some None] when the dictionary has no such entry *)
Definition read_info (file : bytes) (name : bytes) : option (option bytes) :=
  x <- table_offset file ;;
  t <- read_table (skipn (Z.to_nat x) file) ;;
  trailer <- strip (bs "trailer" ++ eol) (snd t) ;;
  info <- entry_of (bs "/Info ") trailer ;;
  n <- reference info ;;
  s <- object_from file (fst t) (fst n) ;;
  match entry_of (bs "/" ++ name ++ bs " ") s with
  | None => Some None
  | Some r => v <- read_string r ;; Some (Some (fst v))
  end.

(** C92: the bookmarks in the order of reading (a bookmark, those below it, then the next one), with their depth *)
Section Outlines.
  Variable unlock : Z -> bytes -> bytes.
  Fixpoint read_items (fuel : nat) (file : bytes) (table : list entry) (depth k : Z) : option (list (Z * bytes)) :=
    match fuel with
    | O => None
    | S fuel =>
        s <- object_from file table k ;;
        title <- entry_of (bs "/Title ") s ;;
        v <- read_string title ;;
        below <- match entry_of (bs "/First ") s with
                 | None => Some []
                 | Some r => n <- reference r ;; read_items fuel file table (depth + 1) (fst n) end ;;
        rest <- match entry_of (bs "/Next ") s with
                | None => Some []
                | Some r => n <- reference r ;; read_items fuel file table depth (fst n) end ;;
        Some ((depth, unlock k (fst v)) :: below ++ rest)
    end.
  Definition read_outlines (file : bytes) : option (list (Z * bytes)) :=
    x <- table_offset file ;;
    t <- read_table (skipn (Z.to_nat x) file) ;;
    trailer <- strip (bs "trailer" ++ eol) (snd t) ;;
    root <- entry_of (bs "/Root ") trailer ;;
    nr <- reference root ;;
    catalog <- object_from file (fst t) (fst nr) ;;
    match entry_of (bs "/Outlines ") catalog with
    | None => Some []
    | Some r =>
        n <- reference r ;;
        o <- object_from file (fst t) (fst n) ;;
        first <- entry_of (bs "/First ") o ;;
        nf <- reference first ;;
        read_items (length (fst t)) file (fst t) 0 (fst nf)
    end.
End Outlines.

(** C94: the attached files, from the catalog: the name (7.9.2.2: a text string in UTF-16 with a byte order mark, here of code points
    below 65536) and the content of each *)
Fixpoint code_units (s : bytes) : option (list Z) :=
  match s with
  | [] => Some []
  | a :: b :: t => r <- code_units t ;; Some (256 * a + b :: r)
  | _ => None
  end.
Definition text_string (s : bytes) : option (list Z) := r <- strip [254; 255] s ;; code_units r.
(** the name tree (7.9.6) of one node: pairs of a string and a reference, up to "]" *)
Fixpoint read_names (fuel : nat) (s : bytes) : option (list Z) :=
  match fuel with
  | O => None
  | S fuel => if prefixb (bs "]") (skip_white s) then Some []
              else v <- read_string (skip_white s) ;; n <- reference (skip_white (snd v)) ;; l <- read_names fuel (snd n) ;; Some (fst n :: l)
  end.
Section Files.
  Variables (inflate : bytes -> option bytes) (unlock : Z -> bytes -> bytes).
  (** 7.11.3: a file specification with an embedded file *)
  Definition attached_file (file : bytes) (table : list entry) (k : Z) : option (list Z * bytes) :=
    s <- object_from file table k ;;
    uf <- entry_of (bs "/UF ") s ;;
    v <- read_string uf ;;
    name <- text_string (unlock k (fst v)) ;;
    ef <- entry_of (bs "/EF ") s ;;
    f <- entry_of (bs "/F ") ef ;;
    n <- reference f ;;
    content <- stream_data inflate unlock file table (fst n) ;;
    Some (name, content).
  Definition read_files (file : bytes) : option (list (list Z * bytes)) :=
    x <- table_offset file ;;
    t <- read_table (skipn (Z.to_nat x) file) ;;
    trailer <- strip (bs "trailer" ++ eol) (snd t) ;;
    root <- entry_of (bs "/Root ") trailer ;;
    nr <- reference root ;;
    catalog <- object_from file (fst t) (fst nr) ;;
    names <- entry_of (bs "/Names ") catalog ;;
    files <- entry_of (bs "/EmbeddedFiles ") names ;;
    l <- entry_of (bs "/Names [") files ;;
    ks <- read_names (length l) l ;;
    all (attached_file file (fst t)) ks.
End Files.

(** C95: what stands in the box (14.11.2) [name] of a page, in the order of the page tree; the media box and the crop box are inherited
    (7.7.3.4); [None] where the page has no such box *)
Fixpoint upto_bracket (s : bytes) : bytes := match s with c :: t => if c =? 93 then [] else c :: upto_bracket t | [] => [] end.
Definition inherited (name : bytes) : bool := beqb name (bs "MediaBox") || beqb name (bs "CropBox").
Definition page_box_at (name : bytes) (file : bytes) (table : list entry) (k : Z) : option (option bytes) :=
  s <- object_from file table k ;;
  match entry_of (bs "/" ++ name ++ bs " [") s with
  | Some r => Some (Some (upto_bracket r))
  | None =>
      if inherited name then
        p <- entry_of (bs "/Parent ") s ;;
        n <- reference p ;;
        t <- object_from file table (fst n) ;;
        Some (match entry_of (bs "/" ++ name ++ bs " [") t with Some r => Some (upto_bracket r) | None => None end)
      else Some None
  end.
Definition read_boxes (name : bytes) (file : bytes) : option (list (option bytes)) :=
  x <- table_offset file ;;
  t <- read_table (skipn (Z.to_nat x) file) ;;
  trailer <- strip (bs "trailer" ++ eol) (snd t) ;;
  root <- entry_of (bs "/Root ") trailer ;;
  nr <- reference root ;;
  catalog <- object_from file (fst t) (fst nr) ;;
  pages <- entry_of (bs "/Pages ") catalog ;;
  np <- reference pages ;;
  tree <- object_from file (fst t) (fst np) ;;
  kids <- entry_of (bs "/Kids [") tree ;;
  ks <- references (length kids) kids ;;
  all (page_box_at name file (fst t)) ks.

(** C96: the links (12.5.6.5) of every page: the text of the rectangle, and where the link leads: to an address (12.6.4.7), or to the
    page with this number, counted from 1 in the page tree, and a view of it (12.3.2.2) *)
Inductive target := Address (uri : bytes) | OnPage (page : Z) (view : bytes) | Nowhere.
Fixpoint position (k i : Z) (kids : list Z) : option Z :=
  match kids with [] => None | x :: t => if x =? k then Some i else position k (i + 1) t end.
Definition link_at (kids : list Z) (s : bytes) : option (bytes * target) :=
  r <- entry_of (bs "/Rect [") s ;;
  match entry_of (bs "/A ") s with
  | Some a => u <- entry_of (bs "/URI (") a ;; v <- read_literal 0 u ;; Some (upto_bracket r, Address (fst v))
  | None => d <- entry_of (bs "/Dest [") s ;; n <- reference d ;;
            Some (upto_bracket r, match position (fst n) 1 kids with Some i => OnPage i (upto_bracket (snd n)) | None => Nowhere end)
  end.
Fixpoint links_at (fuel : nat) (kids : list Z) (s : bytes) : option (list (bytes * target)) :=
  match fuel with
  | O => None
  | S fuel =>
      if prefixb (bs "]") (skip_white s) then Some []
      else rest <- past 0 0 false (skip_white s) ;;
           l <- links_at fuel kids rest ;;
           t <- entry_of (bs "/Subtype /") (skip_white s) ;;
           if prefixb (bs "Link ") t then x <- link_at kids (skip_white s) ;; Some (x :: l) else Some l
  end.
Definition page_links (kids : list Z) (file : bytes) (table : list entry) (k : Z) : option (list (bytes * target)) :=
  s <- object_from file table k ;;
  match entry_of (bs "/Annots [") s with Some r => links_at (length r) kids r | None => Some [] end.
Definition read_links (file : bytes) : option (list (list (bytes * target))) :=
  x <- table_offset file ;;
  t <- read_table (skipn (Z.to_nat x) file) ;;
  trailer <- strip (bs "trailer" ++ eol) (snd t) ;;
  root <- entry_of (bs "/Root ") trailer ;;
  nr <- reference root ;;
  catalog <- object_from file (fst t) (fst nr) ;;
  pages <- entry_of (bs "/Pages ") catalog ;;
  np <- reference pages ;;
  tree <- object_from file (fst t) (fst np) ;;
  kids <- entry_of (bs "/Kids [") tree ;;
  ks <- references (length kids) kids ;;
  all (page_links ks file (fst t)) ks.
