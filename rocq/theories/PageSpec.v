(** C63: what the dictionary of a page object has to say (ISO 32000-1, 7.7.3.3, 12.5), written from the
    page, its links and its attachments without reference to the writer. *)
From Verif Require Import Base TextModel TextSpec DocModel DocSpec.
From Coq Require Import String.
Import ListNotations.
Open Scope Z_scope.
Notation length := List.length.
Local Notation "a +++ b" := (List.app a b) (at level 60, right associativity, only parsing).

Section PageSpec.
  Context {E : env} (d : doc (e_num E)).
  (** the object number of the file specification of an attachment *)
  Variable filespec : Z -> Z.
  Notation fmt := (e_fmt2 E).

  Definition line (s : bytes) : bytes := s +++ eol.
  (** corners of the rectangle with upper left corner (x, y) *)
  Definition rect (x y w h : e_num E) : bytes :=
    bs "[" +++ fmt x +++ bs " " +++ fmt y +++ bs " " +++ fmt (e_nadd E x w) +++ bs " " +++ fmt (e_nsub E y h) +++ bs "]".
  (** [t] is a string object that reads as [s]; in a protected document as as many encrypted bytes *)
  Definition string_of (s t : bytes) : Prop :=
    exists c, (forall rest, read_string (t +++ rest) = Some (c, rest)) /\ length c = length s /\ (d_protect d = None -> c = s).

  Definition height_of (p : Z) : e_num E := match d_pagesizes d p with Some sz => snd sz | None => d_defh d end.
  Definition link_annotation (lk : link (e_num E)) (t : bytes) : Prop :=
    exists action,
      t = bs "<</Type /Annot /Subtype /Link /Rect " +++ rect (lk_x lk) (lk_y lk) (lk_w lk) (lk_h lk) +++ bs " /Border [0 0 0] " +++ action /\
      (lk_link lk = 0 -> exists u, string_of (lk_uri lk) u /\ action = bs "/A <</S /URI /URI " +++ u +++ bs ">>>>") /\
      (lk_link lk <> 0 -> exists p y, at_ (d_links d) (lk_link lk) = Some (p, y) /\
         action = bs "/Dest [" +++ dec (1 + 2 * p) +++ bs " 0 R /XYZ 0 " +++ fmt (e_nsub E (height_of p) (e_nmul E y (d_k d))) +++ bs " null]>>").

  Definition appearance (an : annot (e_num E)) : bytes :=
    bs "<< /Type /XObject /Subtype /Form /BBox " +++ rect (an_x an) (an_y an) (an_w an) (an_h an) +++ bs " /Length 0 >>" +++ eol +++
    bs "stream" +++ eol +++ bs "endstream".
  Definition file_annotation (an : annot (e_num E)) (t : bytes) : Prop :=
    exists a desc name d16 n16,
      at_ (d_atts d) (an_att an) = Some a /\
      utf8toutf16 (at_desc a) true = Ret d16 /\ utf8toutf16 (at_name a) true = Ret n16 /\ string_of d16 desc /\ string_of n16 name /\
      t = bs "<< /Type /Annot /Subtype /FileAttachment /Rect " +++ rect (an_x an) (an_y an) (an_w an) (an_h an) +++ bs " /Border [0 0 0]" +++ eol +++
          bs "/Contents " +++ desc +++ bs " /T " +++ name +++ bs " /AP << /N " +++ appearance an +++ bs ">>" +++
          bs "/FS " +++ dec (filespec (an_att an)) +++ bs " 0 R >>" +++ eol.

  Definition media_box (o : option (e_num E * e_num E)) : bytes :=
    match o with Some (w, h) => line (bs "/MediaBox [0 0 " +++ fmt w +++ bs " " +++ fmt h +++ bs "]") | None => [] end.
  Definition page_box (b : bytes * (e_num E * e_num E * e_num E * e_num E)) : bytes :=
    let '(name, (x, y, w, h)) := b in
    line (bs "/" +++ name +++ bs " [" +++ fmt x +++ bs " " +++ fmt y +++ bs " " +++ fmt w +++ bs " " +++ fmt h +++ bs "]").

  (** the annotations of a page: its links, then its attachments, each exactly once and in order *)
  Definition annotations (pg : page (e_num E)) (t : bytes) : Prop :=
    (pg_links pg = [] /\ pg_annots pg = [] /\ t = []) \/
    ((pg_links pg <> [] \/ pg_annots pg <> []) /\ exists ls fs, Forall2 link_annotation (pg_links pg) ls /\ Forall2 file_annotation (pg_annots pg) fs /\
       t = line (bs "/Annots [" +++ List.concat ls +++ List.concat fs +++ bs "]")).

  (** everything between the reference to the page tree and the reference to the content *)
  Definition page_entries (boxes : list (bytes * (e_num E * e_num E * e_num E * e_num E))) (version : bytes) (pg : page (e_num E)) (t : bytes) : Prop :=
    exists an, annotations pg an /\
      t = media_box (pg_size pg) +++ List.concat (map page_box boxes) +++ line (bs "/Resources 2 0 R") +++ an +++
          (if bltb (bs "1.3") version then line (bs "/Group <</Type /Group /S /Transparency /CS /DeviceRGB>>") else []).
End PageSpec.
