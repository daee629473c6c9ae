From Coq Require Import String ZArith List Bool Lia.
From Verif Require Import Base Crypto.
Import ListNotations.
Open Scope Z_scope.

(** The byte slices handed to documents, as memory: which of the bytes the caller (or another document) can still see are read and which
    are overwritten while documents are produced.  A document is the sequence of the steps below that its Output performs; the steps of
    several documents may alternate in any order (goroutines), or follow one another.  Only what concerns shared memory is modelled: the
    dictionaries around the streams are in DocModel.v.  Simplifications: a step is atomic; a slice is as long as its capacity; a crash
    (slice out of range) ends the step, not the list. *)

(** a byte slice, by the array behind it *)
Definition ref := Z.
(** buf: the contents of the arrays; num: the object number stored in an image description (def.go, ImageInfoType.n) *)
Record mem := { buf : ref -> bytes; num : Z -> Z }.
Definition store (r : ref) (b : bytes) (m : mem) : mem := {| buf := fun x => if x =? r then b else buf m x; num := num m |}.
Definition number (i n : Z) (m : mem) : mem := {| buf := buf m; num := fun x => if x =? i then n else num m x |}.

(** What a document does with data that came from outside, [n] being the number of the object it goes to *)
Inductive step :=
| PutAttachment (n : Z) (content : ref)              (** attachments.go:39-49: Content of an Attachment *)
| PutPage (n : Z) (b : bytes)                        (** fpdf.go:3942-3951, 4132, 4171, 4180: the document's own data *)
| PutFontFile (n : Z) (z : bool) (length1 length2 : Z) (content : ref) (** fpdf.go:4010-4026: zFileBytes of AddFontFromBytes; z: the name ends in .z *)
| PutImage (n i : Z) (data : ref)                    (** fpdf.go:4377-4411: image description i *)
| SameImage (n i : Z)                                (** fpdf.go:4368-4369: its contents are in object n already *)
| PutSoftMask (n : Z) (smask : ref)                  (** fpdf.go:4413-4425 *)
| PutPalette (n : Z) (pal : ref)                     (** fpdf.go:4427-4438 *)
| NameImage (i : Z)                                  (** fpdf.go:4454, template.go:192: the number of image i is written in a dictionary *)
| PutTemplate (n : Z) (content : ref)                (** template.go:205-214: the bytes of a Template *)
| PutImported (n : Z) (refs : list (Z * bytes)) (content : ref) (** fpdf.go:3297-3322: an object of ImportObjects *)
| PutXmp (n : Z) (content : ref).                    (** fpdf.go:4715-4723: SetXmpMetadata *)

(** What the step adds to the file *)
Inductive written :=
| Stream (n : Z) (b : bytes)   (** the bytes between stream and endstream *)
| Body (n : Z) (b : bytes)     (** a complete object *)
| Name (i n : Z)               (** image i is object n *)
| Crash.

Section Run.
  Variable md5 zlib : bytes -> bytes.
  (** SetProtection: the key; SetCompression *)
  Record settings := { set_key : option bytes; set_compress : bool }.

  (** fpdf.go:3745-3753 [putstream], protect.go:49-55: the array behind the slice is encrypted in place *)
  Definition put_shared (s : settings) (n : Z) (r : ref) (m : mem) : list written * mem :=
    match set_key s with
    | None => ([Stream n (buf m r)], m)
    | Some _ => let c := std_crypt md5 (set_key s) n (buf m r) in ([Stream n c], store r c m)
    end.
  (** the same for a slice just made, which nobody else has *)
  Definition put_fresh (s : settings) (n : Z) (b : bytes) (m : mem) : list written * mem := ([Stream n (std_crypt md5 (set_key s) n b)], m).

  Definition cut (from to : Z) (b : bytes) : bytes := firstn (Z.to_nat (to - from)) (skipn (Z.to_nat from) b).
  (** fpdf.go:4012-4014: buf := font[6:length1], then append(buf, font[6+length1+6:length2]...) - into the array of font itself *)
  Definition appended (l1 l2 : Z) (font : bytes) : bytes := firstn (Z.to_nat l1) font ++ cut (l1 + 12) l2 font ++ skipn (Z.to_nat (l2 - 12)) font.
  Definition put_raw (s : settings) (n l1 l2 : Z) (r : ref) (m : mem) : list written * mem :=
    let font := buf m r in
    if (6 <=? l1) && (l1 + 12 <=? l2) && (l2 <=? Z.of_nat (List.length font)) then
      let font := appended l1 l2 font in
      let data := cut 6 (l2 - 12) font in
      match set_key s with
      | None => ([Stream n data], store r font m)
      | Some _ =>
          let c := std_crypt md5 (set_key s) n data in
          ([Stream n c], store r (firstn 6 font ++ c ++ skipn (Z.to_nat (l2 - 12)) font) m)
      end
    else ([Crash], m).

  (** fpdf.go:3311-3313 *)
  Definition patch (p : Z * bytes) (b : bytes) : bytes :=
    firstn (Z.to_nat (fst p)) b ++ snd p ++ skipn (Z.to_nat (fst p) + List.length (snd p)) b.

  Definition do (s : settings) (st : step) (m : mem) : list written * mem :=
    match st with
    | PutAttachment n r => put_fresh s n (zlib (buf m r)) m
    | PutPage n b => put_fresh s n b m
    | PutFontFile n z l1 l2 r => if negb z && (0 <? l2) then put_raw s n l1 l2 r m else put_shared s n r m
    | PutImage n i r => put_shared s n r (number i n m)
    | SameImage n i => ([], number i n m)
    | PutSoftMask n r => put_shared s n r m
    | PutPalette n r => if set_compress s then put_fresh s n (zlib (buf m r)) m else put_shared s n r m
    | NameImage i => ([Name i (num m i)], m)
    | PutTemplate n r => if set_compress s then put_fresh s n (zlib (buf m r)) m else put_shared s n r m
    | PutImported n refs r =>
        let b := fold_left (fun b p => patch p b) refs (buf m r) in
        ([Body n b], store r b m)
    | PutXmp n r => match buf m r with [] => ([], m) | _ => put_shared s n r m end
    end.

  (** Several documents, by number: the order in which their steps happen *)
  Definition schedule := list (Z * step).
  Fixpoint run (set : Z -> settings) (sched : schedule) (m : mem) : list (Z * written) * mem :=
    match sched with
    | [] => ([], m)
    | (d, st) :: rest =>
        let (o, m1) := do (set d) st m in
        let (o2, m2) := run set rest m1 in
        (map (pair d) o ++ o2, m2)
    end.
End Run.
