(** Model of document assembly: fpdf.go enddoc and everything it calls, at the
    level of the bytes of the output file.

    - [num] stands for float64; the arithmetic and the formatting verbs are
      arbitrary functions, so the theorems hold whatever they print.
    - [zlib] is util.go:85-91 [sliceCompress], [md5] is crypto/md5.
    - [shuffle site l] is the order in which a Go "range" over a map visits its
      entries; every loop over a map has its own site number.
    - Object numbers that the code stores back into maps, slices and structs
      (font.N, image.n, layer.objNum, ...) are kept in one table [w_tab] indexed
      by [slot]; a missing entry reads 0 like a Go zero value.
    - An index or slice out of range sets [w_panic]; what follows is then
      irrelevant and theorems speak of runs that did not panic. *)
From Verif Require Import Base TextModel Crypto.
From Coq Require Import String.
Open Scope Z_scope.
Notation length := List.length.
Local Notation "a +++ b" := (List.app a b) (at level 60, right associativity, only parsing).

Definition zlen {A} (l : list A) : Z := Z.of_nat (length l).
Definition nl : bytes := [10].

(** Go string comparison a < b *)
Fixpoint bltb (a b : bytes) : bool :=
  match a, b with
  | _, [] => false
  | [], _ :: _ => true
  | x :: a', y :: b' => (x <? y) || ((x =? y) && bltb a' b')
  end.

(** sort.SliceStable with the given "less" *)
Fixpoint insert_by {A} (lt : A -> A -> bool) (x : A) (l : list A) : list A :=
  match l with
  | [] => [x]
  | y :: t => if lt y x || negb (lt x y) then y :: insert_by lt x t else x :: l
  end.
Definition sort_by {A} (lt : A -> A -> bool) (l : list A) : list A :=
  fold_left (fun acc x => insert_by lt x acc) l [].

Inductive slot :=
| SLayer (j : Z) | SBlend (j : Z) | SGrad (j : Z) | SSpot (name : bytes) | SFile (name : bytes)
| SFont (key : bytes) | SImg (ptr : Z) | STpl (id : bytes) | SImp (hash : bytes) | SAtt (ptr : Z)
| SJs | SEnc | SOutl.
Definition slot_eqb (a b : slot) : bool :=
  match a, b with
  | SLayer i, SLayer j | SBlend i, SBlend j | SGrad i, SGrad j | SImg i, SImg j | SAtt i, SAtt j => i =? j
  | SSpot x, SSpot y | SFile x, SFile y | SFont x, SFont y | STpl x, STpl y | SImp x, SImp y => beqb x y
  | SJs, SJs | SEnc, SEnc | SOutl, SOutl => true
  | _, _ => false
  end.
Fixpoint find_slot (s : slot) (t : list (slot * Z)) : option Z :=
  match t with
  | [] => None
  | (k, v) :: t' => if slot_eqb s k then Some v else find_slot s t'
  end.

(** Writer state: the relevant fields of Fpdf during enddoc *)
Record wst := {
  w_buf : bytes;                    (* f.buffer *)
  w_n : Z;                          (* f.n *)
  w_offs : list Z;                  (* f.offsets *)
  w_tab : list (slot * Z);
  w_cip : option (Z * rc4st);       (* protect.rc4n, protect.rc4cipher *)
  w_err : bool;                     (* f.err != nil *)
  w_panic : bool }.

Definition set_buf b w := {| w_buf := b; w_n := w_n w; w_offs := w_offs w; w_tab := w_tab w; w_cip := w_cip w; w_err := w_err w; w_panic := w_panic w |}.
Definition set_offs o w := {| w_buf := w_buf w; w_n := w_n w; w_offs := o; w_tab := w_tab w; w_cip := w_cip w; w_err := w_err w; w_panic := w_panic w |}.
Definition set_n n w := {| w_buf := w_buf w; w_n := n; w_offs := w_offs w; w_tab := w_tab w; w_cip := w_cip w; w_err := w_err w; w_panic := w_panic w |}.
Definition set_tab t w := {| w_buf := w_buf w; w_n := w_n w; w_offs := w_offs w; w_tab := t; w_cip := w_cip w; w_err := w_err w; w_panic := w_panic w |}.
Definition set_cip c w := {| w_buf := w_buf w; w_n := w_n w; w_offs := w_offs w; w_tab := w_tab w; w_cip := c; w_err := w_err w; w_panic := w_panic w |}.
Definition set_err w := {| w_buf := w_buf w; w_n := w_n w; w_offs := w_offs w; w_tab := w_tab w; w_cip := w_cip w; w_err := true; w_panic := w_panic w |}.
Definition panic w := {| w_buf := w_buf w; w_n := w_n w; w_offs := w_offs w; w_tab := w_tab w; w_cip := w_cip w; w_err := w_err w; w_panic := true |}.

Definition save (s : slot) (w : wst) : wst := set_tab ((s, w_n w) :: w_tab w) w.
Definition saved (s : slot) (w : wst) : Z := match find_slot s (w_tab w) with Some v => v | None => 0 end.

(** fpdf.go:3756-3764 [out]: during assembly f.state is 1, so the line goes to
    the document buffer. *)
Definition out (s : bytes) (w : wst) : wst := set_buf (w_buf w +++ s +++ nl) w.

(** f.offsets[k] = v; panic when out of range *)
Definition set_off (k v : Z) (w : wst) : wst :=
  if (0 <=? k) && (k <? zlen (w_offs w)) then set_offs (set_nth (Z.to_nat k) v (w_offs w)) w else panic w.

(** fpdf.go:3735-3743 [newobj] *)
Definition newobj (w : wst) : wst :=
  let n := w_n w + 1 in
  let offs := w_offs w +++ repeat 0 (Z.to_nat (n + 1 - zlen (w_offs w))) in
  let w := set_n n (set_offs offs w) in
  let w := set_off n (zlen (w_buf w)) w in
  out (dec n +++ bs " 0 obj") w.

(** What the model does not fix: the number type with its arithmetic and
    printing, compression, digests and map iteration order. *)
Record env := {
  e_num : Type;
  e_nadd : e_num -> e_num -> e_num; e_nsub : e_num -> e_num -> e_num; e_nmul : e_num -> e_num -> e_num;
  e_nopp : e_num -> e_num; e_ntwo : e_num;
  e_fmt2 : e_num -> bytes; e_fmt3 : e_num -> bytes; e_fmt5 : e_num -> bytes;   (* %.2f %.3f %.5f *)
  e_pct3 : Z -> bytes;                    (* sprintf("%.3f", float64(v)/100) *)
  e_zlib : bytes -> bytes;
  e_md5 : bytes -> bytes;
  e_hex : bytes -> bytes;                 (* hex.EncodeToString *)
  e_shuffle : Z -> forall A, list A -> list A;
  e_to_unicode : bytes }.                 (* the constant toUnicode of util.go *)

Set Implicit Arguments.
Unset Strict Implicit.
(** ** The document as built by the API calls; [num] is float64 *)
Section Rec.
  Variable num : Type.
  Record attachment := { at_content : bytes; at_name : bytes; at_desc : bytes; at_objnum : Z (* before assembly *) }.
  Record link := { lk_x : num; lk_y : num; lk_w : num; lk_h : num; lk_link : Z; lk_uri : bytes }.
  Record annot := { an_att : Z; an_x : num; an_y : num; an_w : num; an_h : num }.
  Record page := {
    pg_content : bytes;
    pg_size : option (num * num);                          (* f.pageSizes[n] *)
    pg_boxes : list (bytes * (num * num * num * num));     (* f.pageBoxes[n] *)
    pg_links : list link; pg_annots : list annot }.
  Record fdesc := { fd_ascent : Z; fd_descent : Z; fd_capheight : Z; fd_flags : Z;
                    fd_xmin : Z; fd_ymin : Z; fd_xmax : Z; fd_ymax : Z;
                    fd_italic : Z; fd_stemv : Z; fd_missing : Z }.
  Inductive ftype := FCore | FType1 | FTrueType | FUtf8 | FOther.
  Record font := {
    fo_id : bytes; fo_name : bytes; fo_type : ftype; fo_diffn : Z; fo_cw : list Z; fo_desc : fdesc; fo_file : bytes;
    fo_utf8 : bytes;          (* result of utf8File.GenerateCutFont(usedRunes), see TtfModel *)
    fo_wtext : bytes;         (* the /W text of generateCIDFontMap, see CidModel *)
    fo_gids : list (Z * Z) }. (* utf8File.CodeSymbolDictionary without key 0, in iteration order *)
  Record fontfile := { ff_utf8 : bool; ff_content : option bytes (* embedded or loaded; None: load fails *);
                       ff_len1 : Z; ff_len2 : Z }.
  Record image := { im_ptr : Z; im_id : bytes; im_w : Z; im_h : Z; im_cs : bytes; im_bpc : Z; im_filter : bytes;
                    im_dp : bytes; im_trns : list Z; im_smask : option bytes; im_data : bytes; im_pal : bytes }.
  Inductive tpl := Tpl (ptr : Z) (id : bytes) (cx cy : num) (moved : bool) (wd ht : num) (content : bytes)
                       (images : list (bytes * image)) (subs : list tpl).
  Record blend := { bl_fill : bytes; bl_stroke : bytes; bl_mode : bytes }.
  Record gradient := { gr_tp : Z; gr_c1 : bytes; gr_c2 : bytes; gr_x1 : num; gr_y1 : num; gr_x2 : num; gr_y2 : num; gr_r : num }.
  Record spot := { sp_id : Z; sp_c : Z; sp_m : Z; sp_y : Z; sp_k : Z }.
  Record layer := { la_name : bytes; la_visible : bool }.
  Record outline := { ou_text : bytes; ou_level : Z; ou_page : Z; ou_y : num }.
  Record protect := { pr_key : bytes; pr_o : bytes; pr_u : bytes; pr_p : Z }.
  Record doc := {
    d_pages : list page;               (* f.pages[1..], f.pageLinks, f.pageAttachments *)
    d_page : Z;                        (* f.page *)
    d_k : num; d_h : num; d_defw : num; d_defh : num;  (* f.k, f.h, wPt and hPt of putpages *)
    d_links : list (Z * num);          (* f.links, index 0 unused *)
    d_alias : list (bytes * bytes); d_aliasnb : bytes;
    d_atts : list attachment;          (* heap of Attachment structs *)
    d_docatts : list Z;                (* f.attachments: heap indices *)
    d_version : bytes; d_blendmap : bool (* len(f.blendMap) > 0 *);
    d_compress : bool; d_sort : bool; d_gsort : bool (* gl.catalogSort *);
    d_protect : option protect;
    d_layers : list layer; d_pane : bool;
    d_blends : list blend; d_grads : list gradient;    (* without the unused index 0 *)
    d_spots : list (bytes * spot);
    d_diffs : list bytes; d_files : list (bytes * fontfile); d_fonts : list (bytes * font);
    d_images : list (bytes * image); d_tpls : list (bytes * tpl);
    d_impobjs : list (bytes * (bytes * list (Z * bytes))); (* hash -> data, positions *)
    d_imptpls : list (bytes * bytes);
    d_js : option bytes; d_xmp : bytes; d_outlines : list outline;
    d_producer : bytes; d_title : bytes; d_subject : bytes; d_author : bytes; d_keywords : bytes; d_creator : bytes;
    d_created : bytes; d_modified : bytes;             (* "D:..." strings *)
    d_zoom : bytes; d_layout : bytes;
    d_pagesizes : Z -> option (num * num) }.
  Definition tpl_ptr (t : tpl) : Z := let 'Tpl p _ _ _ _ _ _ _ _ _ := t in p.
  Definition tpl_id (t : tpl) : bytes := let 'Tpl _ i _ _ _ _ _ _ _ _ := t in i.
  Definition tpl_subs (t : tpl) : list (tpl) := let 'Tpl _ _ _ _ _ _ _ _ _ s := t in s.

  (** template.go:270-278 [templateChainDependencies] (the nil entries with which
      the slice starts are dropped by the caller) *)
  Fixpoint tpl_chain (t : tpl) : list (tpl) :=
    match t with
    | Tpl _ _ _ _ _ _ _ _ _ subs => flat_map tpl_chain subs +++ [t]
    end.
  (** template.go:254-264: keep the first occurrence of each pointer *)
  Fixpoint dedup (seen : list (tpl)) (l : list (tpl)) : list (tpl) :=
    match l with
    | [] => seen
    | t :: l' => if existsb (fun s => tpl_ptr t =? tpl_ptr s) seen then dedup seen l' else dedup (seen +++ [t]) l'
    end.
End Rec.

Section Doc.
  Variable E : env.
  Local Notation num := (e_num E).
  Local Notation nadd := (e_nadd E).
  Local Notation nsub := (e_nsub E).
  Local Notation nmul := (e_nmul E).
  Local Notation nopp := (e_nopp E).
  Local Notation ntwo := (e_ntwo E).
  Local Notation fmt2 := (e_fmt2 E).
  Local Notation fmt3 := (e_fmt3 E).
  Local Notation fmt5 := (e_fmt5 E).
  Local Notation pct3 := (e_pct3 E).
  Local Notation zlib := (e_zlib E).
  Local Notation md5 := (e_md5 E).
  Local Notation hex := (e_hex E).
  Local Notation shuffle := (e_shuffle E).
  Local Notation to_unicode := (e_to_unicode E).

  Variable d : doc num.

  (** range over a map: arbitrary order, sorted when the code sorts *)
  Definition keyed {A} (site : Z) (sorted : bool) (lt : A -> A -> bool) (l : list A) : list A :=
    if sorted then sort_by lt (shuffle site A l) else shuffle site A l.
  Definition by_key {A} (a b : bytes * A) : bool := bltb (fst a) (fst b).

  (** ** Encryption *)
  (** protect.go:57-65 [objectKey]: n little-endian, three bytes *)
  Definition object_key (key : bytes) (n : Z) : bytes :=
    firstn 10 (md5 (key +++ [n mod 256; (n / 256) mod 256; (n / 65536) mod 256; 0; 0])).
  (** protect.go:49-55 [rc4]: the cipher is kept while the object number does not change *)
  Definition encrypt (b : bytes) (w : wst) : bytes * wst :=
    match d_protect d with
    | None => (b, w)
    | Some p =>
        let st := match w_cip w with
                  | Some (m, st) => if m =? w_n w then st else rc4_new (object_key (pr_key p) (w_n w))
                  | None => rc4_new (object_key (pr_key p) (w_n w))
                  end in
        let (r, st') := xor_stream st b in
        (r, set_cip (Some (w_n w, st')) w)
    end.

  (** fpdf.go:3593-3600 [textstring] *)
  Definition textstr (s : bytes) (w : wst) : bytes * wst :=
    let '(b, w) := encrypt s w in (bs "(" +++ escape b +++ bs ")", w).

  (** fpdf.go:3745-3753 [putstream] *)
  Definition putstream (b : bytes) (w : wst) : wst :=
    let '(b, w) := encrypt b w in
    out (bs "endstream") (out b (out (bs "stream") w)).

  (** Go: utf8toutf16(s) with the default byte order mark; a panic is recorded *)
  Definition utf16 (s : bytes) (w : wst) : bytes * wst :=
    match utf8toutf16 s true with
    | Ret b => (b, w)
    | _ => ([], panic w)
    end.
  Definition textstr16 (s : bytes) (w : wst) : bytes * wst :=
    let (b, w) := utf16 s w in textstr b w.

  (** ** Attachments *)
  (** attachments.go:39-49 [writeCompressedFileObject] *)
  Definition write_file (content : bytes) (w : wst) : wst :=
    let c := zlib content in
    let w := newobj w in
    let w := out (bs "<< /Type /EmbeddedFile /Length " +++ dec (zlen c) +++ bs " /Filter /FlateDecode /Params << /CheckSum <"
                  +++ hex (md5 content) +++ bs "> /Size " +++ dec (zlen content) +++ bs " >> >>" +++ nl) w in
    let w := putstream c w in
    out (bs "endobj") w.

  Definition att_num (ptr : Z) (w : wst) : Z :=
    match find_slot (SAtt ptr) (w_tab w) with
    | Some v => v
    | None => match at_ (d_atts d) ptr with Some a => at_objnum a | None => 0 end
    end.

  (** attachments.go:52-68 [embed] *)
  Definition embed (ptr : Z) (w : wst) : wst :=
    match at_ (d_atts d) ptr with
    | None => panic w
    | Some a =>
        if negb (att_num ptr w =? 0) then w
        else
          let w := write_file (at_content a) w in
          let sid := w_n w in
          let w := newobj w in
          let (t1, w) := textstr16 (at_name a) w in
          let (t2, w) := textstr16 (at_desc a) w in
          let w := out (bs "<< /Type /Filespec /F () /UF " +++ t1 +++ bs " /EF << /F " +++ dec sid +++ bs " 0 R >> /Desc "
                        +++ t2 +++ nl +++ bs ">>") w in
          let w := out (bs "endobj") w in
          save (SAtt ptr) w
    end.
  (** attachments.go:82-87 [putAttachments] *)
  Definition put_attachments (w : wst) : wst := fold_left (fun w p => embed p w) (d_docatts d) w.
  (** attachments.go:130-141 [putAnnotationsAttachments] (the map m is never filled) *)
  Definition put_annot_attachments (w : wst) : wst :=
    fold_left (fun w p => embed p w) (List.concat (map (fun pg => map (@an_att num) (pg_annots pg)) (d_pages d))) w.

  (** ** Pages *)
  (** strings.Replace(s, old, new, -1) with an empty old: new goes before every
      rune and at the end; [skip] counts the remaining bytes of the current rune *)
  Fixpoint insert_every (rep s : bytes) (skip : nat) : bytes :=
    match s with
    | [] => rep
    | c :: t => match skip with
                | S k => c :: insert_every rep t k
                | O => rep +++ c :: insert_every rep t (snd (decode_rune s) - 1)
                end
    end.
  (** fpdf.go:3858-3875 [replaceAliases] on one page for one alias *)
  Definition subst_alias (al rep s : bytes) : bytes :=
    if containsb al s then
      (match al with [] => insert_every rep s 0 | _ => replace_all al rep s end)
    else s.
  (** UTF-16 forms are computed without byte order mark *)
  Definition to16 (s : bytes) : bytes := match utf8toutf16 s false with Ret b => b | _ => [] end.
  Definition alias_map : list (bytes * bytes) :=
    if 0 <? zlen (d_aliasnb d) then (d_aliasnb d, dec (d_page d)) :: filter (fun p => negb (beqb (fst p) (d_aliasnb d))) (d_alias d)
    else d_alias d.
  Definition replace_aliases (s : bytes) : bytes :=
    let s := fold_left (fun s p => subst_alias (fst p) (snd p) s) (shuffle 1 _ alias_map) s in
    fold_left (fun s p => subst_alias (to16 (fst p)) (to16 (snd p)) s) (shuffle 2 _ alias_map) s.

  (** attachments.go:143-157 [putAttachmentAnnotationLinks] *)
  Fixpoint annot_links (l : list (annot num)) (w : wst) : bytes * wst :=
    match l with
    | [] => ([], w)
    | an :: l' =>
        let x2 := nadd (an_x an) (an_w an) in
        let y2 := nsub (an_y an) (an_h an) in
        let box := bs "[" +++ fmt2 (an_x an) +++ bs " " +++ fmt2 (an_y an) +++ bs " " +++ fmt2 x2 +++ bs " " +++ fmt2 y2 +++ bs "]" in
        let as_ := bs "<< /Type /XObject /Subtype /Form /BBox " +++ box +++ bs " /Length 0 >>" +++ nl +++ bs "stream" +++ nl +++ bs "endstream" in
        let '(ad, w) := match at_ (d_atts d) (an_att an) with
                        | Some a => ((at_desc a, at_name a), w)
                        | None => (([], []), panic w) end in
        let (t1, w) := textstr16 (fst ad) w in
        let (t2, w) := textstr16 (snd ad) w in
        let (rest, w') := annot_links l' w in
        (bs "<< /Type /Annot /Subtype /FileAttachment /Rect " +++ box +++ bs " /Border [0 0 0]" +++ nl
         +++ bs "/Contents " +++ t1 +++ bs " " +++ bs "/T " +++ t2 +++ bs " "
         +++ bs "/AP << /N " +++ as_ +++ bs ">>" +++ bs "/FS " +++ dec (att_num (an_att an) w) +++ bs " 0 R >>" +++ nl +++ rest, w')
    end.

  (** fpdf.go:3914-3937: the links of a page *)
  Fixpoint link_annots (l : list (link num)) (w : wst) : bytes * wst :=
    match l with
    | [] => ([], w)
    | lk :: l' =>
        let head := bs "<</Type /Annot /Subtype /Link /Rect [" +++ fmt2 (lk_x lk) +++ bs " " +++ fmt2 (lk_y lk) +++ bs " "
                    +++ fmt2 (nadd (lk_x lk) (lk_w lk)) +++ bs " " +++ fmt2 (nsub (lk_y lk) (lk_h lk)) +++ bs "] /Border [0 0 0] " in
        let (body, w) :=
          if lk_link lk =? 0 then
            let (t, w) := textstr (lk_uri lk) w in
            (bs "/A <</S /URI /URI " +++ t +++ bs ">>>>", w)
          else match at_ (d_links d) (lk_link lk) with
               | None => ([], panic w)
               | Some (p, y) =>
                   let h := match d_pagesizes d p with Some sz => snd sz | None => d_defh d end in
                   (bs "/Dest [" +++ dec (1 + 2 * p) +++ bs " 0 R /XYZ 0 " +++ fmt2 (nsub h (nmul y (d_k d))) +++ bs " null]>>", w)
               end in
        let (rest, w) := link_annots l' w in
        (head +++ body +++ rest, w)
    end.

  (** pdf version after layerEndDoc (layer.go:78-84) and putheader (fpdf.go:4698-4703) *)
  Definition version1 : bytes :=
    if (0 <? zlen (d_layers d)) && bltb (d_version d) (bs "1.5") then bs "1.5" else d_version d.
  Definition version2 : bytes :=
    if d_blendmap d && bltb version1 (bs "1.4") then bs "1.4" else version1.

  (** the dictionary of a page object up to its /Contents entry, fpdf.go:3900-3946 *)
  Definition page_head (pg : page num) (w : wst) : wst :=
    let w := out (bs "<</Type /Page") w in
    let w := out (bs "/Parent 1 0 R") w in
    let w := match pg_size pg with
             | Some (wd, ht) => out (bs "/MediaBox [0 0 " +++ fmt2 wd +++ bs " " +++ fmt2 ht +++ bs "]") w
             | None => w end in
    let w := fold_left (fun w b =>
               let '(t, (x, y, wd, ht)) := b in
               out (bs "/" +++ t +++ bs " [" +++ fmt2 x +++ bs " " +++ fmt2 y +++ bs " " +++ fmt2 wd +++ bs " " +++ fmt2 ht +++ bs "]") w)
             (shuffle 3 _ (pg_boxes pg)) w in
    let w := out (bs "/Resources 2 0 R") w in
    let w := if 0 <? zlen (pg_links pg) + zlen (pg_annots pg) then
               let (t1, w) := link_annots (pg_links pg) w in
               let (t2, w) := annot_links (pg_annots pg) w in
               out (bs "/Annots [" +++ t1 +++ t2 +++ bs "]") w
             else w in
    if bltb (bs "1.3") version2 then out (bs "/Group <</Type /Group /S /Transparency /CS /DeviceRGB>>") w else w.

  (** fpdf.go:3896-3961: page object and content object *)
  Definition put_page (pg : page num) (w : wst) : wst :=
    let w := newobj w in
    let w := page_head pg w in
    let w := out (bs "/Contents " +++ dec (w_n w + 1) +++ bs " 0 R>>") w in
    let w := out (bs "endobj") w in
    let w := newobj w in
    let content := replace_aliases (pg_content pg) in
    let w := if d_compress d then
               let data := zlib content in
               putstream data (out (bs "<</Filter /FlateDecode /Length " +++ dec (zlen data) +++ bs ">>") w)
             else putstream content (out (bs "<</Length " +++ dec (zlen content) +++ bs ">>") w) in
    out (bs "endobj") w.

  Fixpoint put_page_list (l : list (page num)) (w : wst) (kids : list Z) : wst * list Z :=
    match l with
    | [] => (w, kids)
    | pg :: l' => put_page_list l' (put_page pg w) (kids +++ [w_n w + 1])
    end.

  Definition kids_text (kids : list Z) : bytes := List.concat (map (fun k => dec k +++ bs " 0 R ") kids).

  (** utf8toutf16 panics on a truncated sequence (fpdf.go:3862-3863) *)
  Definition alias_panics : bool :=
    existsb (fun p => match utf8toutf16 (fst p) false, utf8toutf16 (snd p) false with Ret _, Ret _ => false | _, _ => true end) alias_map.

  (** fpdf.go:3877-3968 [putpages]; pages 1..f.page *)
  Definition put_pages (w : wst) : wst :=
    let w := if (zlen (d_pages d) <? d_page d) || alias_panics then panic w else w in
    let (w, kids) := put_page_list (firstn (Z.to_nat (d_page d)) (d_pages d)) w [] in
    let w := set_off 1 (zlen (w_buf w)) w in
    let w := out (bs "1 0 obj") w in
    let w := out (bs "<</Type /Pages") w in
    let w := out (bs "/Kids [" +++ kids_text kids +++ bs "]") w in
    let w := out (bs "/Count " +++ dec (d_page d)) w in
    let w := out (bs "/MediaBox [0 0 " +++ fmt2 (d_defw d) +++ bs " " +++ fmt2 (d_defh d) +++ bs "]") w in
    let w := out (bs ">>") w in
    out (bs "endobj") w.

  (** ** Resources *)
  (** a loop over l with its index *)
  Fixpoint iteri (A : Type) (g : Z -> A -> wst -> wst) (j : Z) (l : list A) (w : wst) : wst :=
    match l with [] => w | x :: l' => iteri g (j + 1) l' (g j x w) end.

  (** layer.go:86-93 [layerPutLayers] *)
  Definition put_layer (j : Z) (l : layer) (w : wst) : wst :=
    let w := newobj w in
    let w := save (SLayer j) w in
    let (t, w) := textstr16 (la_name l) w in
    let w := out (bs "<</Type /OCG /Name " +++ t +++ bs ">>") w in
    out (bs "endobj") w.
  (** fpdf.go:4522-4532 [putBlendModes] *)
  Definition put_blend (j : Z) (b : blend) (w : wst) : wst :=
    let w := newobj w in
    let w := save (SBlend j) w in
    let w := out (bs "<</Type /ExtGState /ca " +++ bl_fill b +++ bs " /CA " +++ bl_stroke b +++ bs " /BM /" +++ bl_mode b +++ bs ">>") w in
    out (bs "endobj") w.
  (** fpdf.go:4534-4557 [putGradients] *)
  Definition put_grad (j : Z) (g : gradient num) (w : wst) : wst :=
    let '(w, f1) :=
      if (gr_tp g =? 2) || (gr_tp g =? 3) then
        let w := newobj w in
        let w := out (bs "<</FunctionType 2 /Domain [0.0 1.0] /C0 [" +++ gr_c1 g +++ bs "] /C1 [" +++ gr_c2 g +++ bs "] /N 1>>") w in
        let w := out (bs "endobj") w in (w, w_n w)
      else (w, 0) in
    let w := newobj w in
    let w := out (bs "<</ShadingType " +++ dec (gr_tp g) +++ bs " /ColorSpace /DeviceRGB") w in
    let w := if gr_tp g =? 2 then
               out (bs "/Coords [" +++ fmt5 (gr_x1 g) +++ bs " " +++ fmt5 (gr_y1 g) +++ bs " " +++ fmt5 (gr_x2 g) +++ bs " " +++ fmt5 (gr_y2 g)
                    +++ bs "] /Function " +++ dec f1 +++ bs " 0 R /Extend [true true]>>") w
             else if gr_tp g =? 3 then
               out (bs "/Coords [" +++ fmt5 (gr_x1 g) +++ bs " " +++ fmt5 (gr_y1 g) +++ bs " 0 " +++ fmt5 (gr_x2 g) +++ bs " " +++ fmt5 (gr_y2 g)
                    +++ bs " " +++ fmt5 (gr_r g) +++ bs "] /Function " +++ dec f1 +++ bs " 0 R /Extend [true true]>>") w
             else w in
    let w := out (bs "endobj") w in
    save (SGrad j) w.
  (** spotcolor.go:163-176 [putSpotColors] *)
  Definition put_spot (e : bytes * spot) (w : wst) : wst :=
    let (name, v) := e in
    let w := newobj w in
    let w := out (bs "[/Separation /" +++ replace_all (bs " ") (bs "#20") name) w in
    let w := out (bs "/DeviceCMYK <<") w in
    let w := out (bs "/Range [0 1 0 1 0 1 0 1] /C0 [0 0 0 0] ") w in
    let w := out (bs "/C1 [" +++ pct3 (sp_c v) +++ bs " " +++ pct3 (sp_m v) +++ bs " " +++ pct3 (sp_y v) +++ bs " " +++ pct3 (sp_k v) +++ bs "] ") w in
    let w := out (bs "/FunctionType 2 /Domain [0 1] /N 1>>]") w in
    let w := out (bs "endobj") w in
    save (SSpot name) w.

  (** fpdf.go:3975-3980: encoding differences *)
  Definition put_diff (diff : bytes) (w : wst) : wst :=
    let w := newobj w in
    let w := out (bs "<</Type /Encoding /BaseEncoding /WinAnsiEncoding /Differences [" +++ diff +++ bs "]>>") w in
    out (bs "endobj") w.

  (** fpdf.go:4016-4026: dictionary and data of a font file *)
  Definition fontfile_stream (info : fontfile) (compressed : bool) (data : bytes) (w : wst) : wst :=
    let w := out (bs "<</Length " +++ dec (zlen data)) w in
    let w := if compressed then out (bs "/Filter /FlateDecode") w else w in
    let w := out (bs "/Length1 " +++ dec (ff_len1 info)) w in
    let w := if 0 <? ff_len2 info then out (bs "/Length2 " +++ dec (ff_len2 info) +++ bs " /Length3 0") w else w in
    let w := out (bs ">>") w in
    let w := putstream data w in
    out (bs "endobj") w.

  (** fpdf.go:3992-4028: one font file; an unreadable file is the error exit *)
  Definition put_fontfile (e : bytes * fontfile) (w : wst) : wst :=
    let (file, info) := e in
    if w_err w then w
    else if ff_utf8 info then w
    else
      let w := newobj w in
      let w := save (SFile file) w in
      match ff_content info with
      | None => set_err w
      | Some content =>
          let '(compressed, w) := match slice file (zlen file - 2) (zlen file) with
                                  | Some x => (beqb x (bs ".z"), w) | None => (false, panic w) end in
          let '(data, w) :=
            if negb compressed && (0 <? ff_len2 info) then
              match slice content 6 (ff_len1 info), slice content (6 + ff_len1 info + 6) (ff_len2 info) with
              | Some a, Some b => (a +++ b, w)
              | _, _ => (content, panic w)
              end
            else (content, w) in
          fontfile_stream info compressed data w
      end.

  (** [font.Cw[32..255]] each followed by a space *)
  Fixpoint width_text (cw : list Z) (j : Z) (k : nat) : option bytes :=
    match k with
    | O => Some []
    | S k' => match at_ cw j, width_text cw (j + 1) k' with
              | Some v, Some t => Some (dec v +++ bs " " +++ t)
              | _, _ => None
              end
    end.
  Definition bbox_text (fd : fdesc) : bytes :=
    bs "/FontBBox [" +++ dec (fd_xmin fd) +++ bs " " +++ dec (fd_ymin fd) +++ bs " " +++ dec (fd_xmax fd) +++ bs " " +++ dec (fd_ymax fd) +++ bs "] ".

  (** fpdf.go:4131-4136: the CID to GID map *)
  Fixpoint gid_map (gids : list (Z * Z)) (m : bytes) : option bytes :=
    match gids with
    | [] => Some m
    | (cc, g) :: t =>
        if (0 <=? cc) && (cc * 2 + 1 <? zlen m)
        then gid_map t (set_nth (Z.to_nat (cc * 2 + 1)) (g mod 256) (set_nth (Z.to_nat (cc * 2)) ((g / 256) mod 256) m))
        else None
    end.

  (** fpdf.go:4048-4058: a core font *)
  Definition put_font_core (fo : font) (w : wst) : wst :=
    let w := newobj w in
    let w := out (bs "<</Type /Font") w in
    let w := out (bs "/BaseFont /" +++ fo_name fo) w in
    let w := out (bs "/Subtype /Type1") w in
    let w := if negb (beqb (fo_name fo) (bs "Symbol")) && negb (beqb (fo_name fo) (bs "ZapfDingbats"))
             then out (bs "/Encoding /WinAnsiEncoding") w else w in
    let w := out (bs ">>") w in
    out (bs "endobj") w.
  (** fpdf.go:4059-4106: a Type1 ([t1]) or TrueType font; [nf] is f.n before the encodings *)
  Definition put_font_simple (t1 : bool) (nf : Z) (fo : font) (w : wst) : wst :=
    let fd := fo_desc fo in
    let w := newobj w in
    let w := out (bs "<</Type /Font") w in
    let w := out (bs "/BaseFont /" +++ fo_name fo) w in
    let w := out (bs "/Subtype /" +++ (if t1 then bs "Type1" else bs "TrueType")) w in
    let w := out (bs "/FirstChar 32 /LastChar 255") w in
    let w := out (bs "/Widths " +++ dec (w_n w + 1) +++ bs " 0 R") w in
    let w := out (bs "/FontDescriptor " +++ dec (w_n w + 2) +++ bs " 0 R") w in
    let w := if 0 <? fo_diffn fo then out (bs "/Encoding " +++ dec (nf + fo_diffn fo) +++ bs " 0 R") w
             else out (bs "/Encoding /WinAnsiEncoding") w in
    let w := out (bs ">>") w in
    let w := out (bs "endobj") w in
    let w := newobj w in
    let '(wt, w) := match width_text (fo_cw fo) 32 224 with Some t => (t, w) | None => ([], panic w) end in
    let w := out (bs "[" +++ wt +++ bs "]") w in
    let w := out (bs "endobj") w in
    let w := newobj w in
    let w := out (bs "<</Type /FontDescriptor /FontName /" +++ fo_name fo +++ bs " "
                  +++ bs "/Ascent " +++ dec (fd_ascent fd) +++ bs " /Descent " +++ dec (fd_descent fd)
                  +++ bs " /CapHeight " +++ dec (fd_capheight fd) +++ bs " /Flags " +++ dec (fd_flags fd) +++ bs " "
                  +++ bbox_text fd +++ bs "/ItalicAngle " +++ dec (fd_italic fd) +++ bs " /StemV " +++ dec (fd_stemv fd)
                  +++ bs " /MissingWidth " +++ dec (fd_missing fd) +++ bs " /FontFile" +++ (if t1 then [] else bs "2")
                  +++ bs " " +++ dec (saved (SFile (fo_file fo)) w) +++ bs " 0 R>>") w in
    out (bs "endobj") w.
  (** fpdf.go:4107-4181: a UTF-8 font *)
  Definition gid_zero : bytes := repeat 0 (Z.to_nat 131072).
  Definition put_font_utf8 (fo : font) (w : wst) : wst :=
    let fd := fo_desc fo in
    let name := bs "utf8" +++ fo_name fo in
    let stream := zlib (fo_utf8 fo) in
    let w := newobj w in
    let w := out (bs "<</Type /Font" +++ nl +++ bs "/Subtype /Type0" +++ nl +++ bs "/BaseFont /" +++ name +++ nl
                  +++ bs "/Encoding /Identity-H" +++ nl +++ bs "/DescendantFonts [" +++ dec (w_n w + 1) +++ bs " 0 R]" +++ nl
                  +++ bs "/ToUnicode " +++ dec (w_n w + 2) +++ bs " 0 R>>") w in
    let w := out (bs "endobj") w in            (* one outf in the code, same bytes *)
    let w := newobj w in
    let w := out (bs "<</Type /Font" +++ nl +++ bs "/Subtype /CIDFontType2" +++ nl +++ bs "/BaseFont /" +++ name +++ nl
                  +++ bs "/CIDSystemInfo " +++ dec (w_n w + 2) +++ bs " 0 R" +++ nl +++ bs "/FontDescriptor " +++ dec (w_n w + 3) +++ bs " 0 R") w in
    let w := if fd_missing fd =? 0 then w else out (bs "/DW " +++ dec (fd_missing fd)) w in
    let w := out (fo_wtext fo) w in
    let w := out (bs "/CIDToGIDMap " +++ dec (w_n w + 4) +++ bs " 0 R>>") w in
    let w := out (bs "endobj") w in
    let w := newobj w in
    let w := out (bs "<</Length " +++ dec (zlen to_unicode) +++ bs ">>") w in
    let w := putstream to_unicode w in
    let w := out (bs "endobj") w in
    let w := newobj w in
    let w := out (bs "<</Registry (Adobe)" +++ nl +++ bs "/Ordering (UCS)" +++ nl +++ bs "/Supplement 0>>") w in
    let w := out (bs "endobj") w in
    let w := newobj w in
    let w := out (bs "<</Type /FontDescriptor /FontName /" +++ name +++ nl +++ bs " /Ascent " +++ dec (fd_ascent fd)
                  +++ bs " /Descent " +++ dec (fd_descent fd) +++ bs " /CapHeight " +++ dec (fd_capheight fd)
                  +++ bs " /Flags " +++ dec (Z.ldiff (Z.lor (fd_flags fd) 4) 32) +++ bbox_text fd
                  +++ bs " /ItalicAngle " +++ dec (fd_italic fd) +++ bs " /StemV " +++ dec (fd_stemv fd)
                  +++ bs " /MissingWidth " +++ dec (fd_missing fd) +++ bs "/FontFile2 " +++ dec (w_n w + 2) +++ bs " 0 R" +++ bs ">>") w in
    let w := out (bs "endobj") w in
    let '(gm, w) := match gid_map (fo_gids fo) gid_zero with Some m => (m, w) | None => ([], panic w) end in
    let gm := zlib gm in
    let w := newobj w in
    let w := out (bs "<</Length " +++ dec (zlen gm) +++ bs "/Filter /FlateDecode>>") w in
    let w := putstream gm w in
    let w := out (bs "endobj") w in
    let w := newobj w in
    let w := out (bs "<</Length " +++ dec (zlen stream)) w in
    let w := out (bs "/Filter /FlateDecode") w in
    let w := out (bs "/Length1 " +++ dec (zlen (fo_utf8 fo))) w in
    let w := out (bs ">>") w in
    let w := putstream stream w in
    out (bs "endobj") w.
  (** fpdf.go:4030-4188: one font *)
  Definition put_font (nf : Z) (e : bytes * font) (w : wst) : wst :=
    let (key, fo) := e in
    if w_err w then w
    else
      let w := set_tab ((SFont key, w_n w + 1) :: w_tab w) w in
      match fo_type fo with
      | FCore => put_font_core fo w
      | FType1 => put_font_simple true nf fo w
      | FTrueType => put_font_simple false nf fo w
      | FUtf8 => put_font_utf8 fo w
      | FOther => set_err w
      end.

  (** fpdf.go:3970-4189 [putfonts] *)
  Definition put_fonts (w : wst) : wst :=
    if w_err w then w
    else
      let nf := w_n w in
      let w := fold_left (fun w x => put_diff x w) (d_diffs d) w in
      let w := fold_left (fun w x => put_fontfile x w) (keyed 4 (d_sort d) by_key (d_files d)) w in
      fold_left (fun w x => put_font nf x w) (keyed 5 (d_sort d) by_key (d_fonts d)) w.

  (** fpdf.go:4377-4439 [putimage]; [smask_of] below is its recursive call *)
  Definition image_dict (im : image) (w : wst) : wst :=
    let w := out (bs "<</Type /XObject") w in
    let w := out (bs "/Subtype /Image") w in
    let w := out (bs "/Width " +++ dec (im_w im)) w in
    let w := out (bs "/Height " +++ dec (im_h im)) w in
    let w := if beqb (im_cs im) (bs "Indexed") then
               out (bs "/ColorSpace [/Indexed /DeviceRGB " +++ dec (Z.quot (zlen (im_pal im)) 3 - 1) +++ bs " " +++ dec (w_n w + 1) +++ bs " 0 R]") w
             else
               let w := out (bs "/ColorSpace /" +++ im_cs im) w in
               if beqb (im_cs im) (bs "DeviceCMYK") then out (bs "/Decode [1 0 1 0 1 0 1 0]") w else w in
    let w := out (bs "/BitsPerComponent " +++ dec (im_bpc im)) w in
    let w := if 0 <? zlen (im_filter im) then out (bs "/Filter /" +++ im_filter im) w else w in
    let w := if 0 <? zlen (im_dp im) then out (bs "/DecodeParms <<" +++ im_dp im +++ bs ">>") w else w in
    let w := if 0 <? zlen (im_trns im) then
               out (bs "/Mask [" +++ List.concat (map (fun v => dec v +++ bs " " +++ dec v +++ bs " ") (im_trns im)) +++ bs "]") w
             else w in
    let w := match im_smask im with Some _ => out (bs "/SMask " +++ dec (w_n w + 1) +++ bs " 0 R") w | None => w end in
    let w := out (bs "/Length " +++ dec (zlen (im_data im)) +++ bs ">>") w in
    putstream (im_data im) w.
  Definition smask_image (im : image) (mask : bytes) : image :=
    {| im_ptr := -1; im_id := []; im_w := im_w im; im_h := im_h im; im_cs := bs "DeviceGray"; im_bpc := 8;
       im_filter := im_filter im;
       im_dp := bs "/Predictor 15 /Colors 1 /BitsPerComponent 8 /Columns " +++ dec (im_w im);
       im_trns := []; im_smask := None; im_data := mask; im_pal := [] |}.
  Definition put_image (im : image) (w : wst) : wst :=
    let w := newobj w in
    let w := save (SImg (im_ptr im)) w in
    let w := image_dict im w in
    let w := out (bs "endobj") w in
    let w := match im_smask im with
             | Some (c :: m) =>
                 let w := newobj w in
                 let w := image_dict (smask_image im (c :: m)) w in
                 out (bs "endobj") w
             | _ => w end in
    if beqb (im_cs im) (bs "Indexed") then
      let w := newobj w in
      let w := if d_compress d then
                 let pal := zlib (im_pal im) in
                 putstream pal (out (bs "<</Filter /FlateDecode /Length " +++ dec (zlen pal) +++ bs ">>") w)
               else putstream (im_pal im) (out (bs "<</Length " +++ dec (zlen (im_pal im)) +++ bs ">>") w) in
      out (bs "endobj") w
    else w.

  (** fpdf.go:4343-4375 [putimages]; [ins] is insertedImages *)
  Fixpoint assoc (k : bytes) (l : list (bytes * Z)) : option Z :=
    match l with [] => None | (x, v) :: t => if beqb k x then Some v else assoc k t end.
  Fixpoint put_image_list (l : list (bytes * image)) (ins : list (bytes * Z)) (w : wst) : wst :=
    match l with
    | [] => w
    | (_, im) :: l' =>
        match assoc (im_id im) ins with
        | Some n => put_image_list l' ins (set_tab ((SImg (im_ptr im), n) :: w_tab w) w)
        | None => let w' := put_image im w in
                  put_image_list l' ((im_id im, saved (SImg (im_ptr im)) w') :: ins) w'
        end
    end.
  Definition put_images (w : wst) : wst :=
    put_image_list (keyed 6 (d_sort d) (fun a b => im_w (snd a) <? im_w (snd b)) (d_images d)) [] w.

  (** template.go:129-145 [templateFontCatalog] *)
  Definition tpl_fonts (w : wst) : wst :=
    let w := out (bs "/Font <<") w in
    let w := fold_left (fun w e => out (bs "/F" +++ fo_id (snd e) +++ bs " " +++ dec (saved (SFont (fst e)) w) +++ bs " 0 R") w)
                       (keyed 7 (d_sort d) by_key (d_fonts d)) w in
    out (bs ">>") w.

  (** template.go:236-267 [sortTemplates] *)
  Definition sort_tpls : list (tpl num) :=
    dedup [] (flat_map (fun e => tpl_chain (snd e)) (keyed 8 (d_sort d) by_key (d_tpls d))).

  (** template.go:148-216 [putTemplates], one template *)
  Definition put_tpl (t : tpl num) (w : wst) : wst :=
    match t with
    | Tpl ptr id cx cy moved wd ht content images subs =>
        let k := d_k d in
        let w := newobj w in
        let w := save (STpl id) w in
        let w := out (bs "<<" +++ (if d_compress d then bs "/Filter /FlateDecode " else []) +++ bs "/Type /XObject") w in
        let w := out (bs "/Subtype /Form") w in
        let w := out (bs "/Formtype 1") w in
        let w := out (bs "/BBox [" +++ fmt2 (nmul cx k) +++ bs " " +++ fmt2 (nmul cy k) +++ bs " " +++ fmt2 (nmul (nadd cx wd) k)
                      +++ bs " " +++ fmt2 (nmul (nadd cy ht) k) +++ bs "]") w in
        let w := if moved then out (bs "/Matrix [1 0 0 1 " +++ fmt5 (nmul (nmul (nopp cx) k) ntwo) +++ bs " " +++ fmt5 (nmul (nmul cy k) ntwo) +++ bs "]") w else w in
        let w := out (bs "/Resources ") w in
        let w := out (bs "<</ProcSet [/PDF /Text /ImageB /ImageC /ImageI]") w in
        let w := tpl_fonts w in
        let w := if (0 <? zlen images) || (0 <? zlen subs) then
                   let w := out (bs "/XObject <<") w in
                   let w := fold_left (fun w e => out (bs "/I" +++ im_id (snd e) +++ bs " " +++ dec (saved (SImg (im_ptr (snd e))) w) +++ bs " 0 R") w)
                                      (keyed 9 (d_gsort d) by_key images) w in
                   let w := fold_left (fun w s => match find_slot (STpl (tpl_id s)) (w_tab w) with
                                                  | Some n => out (bs "/TPL" +++ tpl_id s +++ bs " " +++ dec n +++ bs " 0 R") w
                                                  | None => w end) subs w in
                   out (bs ">>") w
                 else w in
        let w := out (bs ">>") w in
        let data := if d_compress d then zlib content else content in
        let w := out (bs "/Length " +++ dec (zlen data) +++ bs " >>") w in
        let w := putstream data w in
        out (bs "endobj") w
    end.
  Definition put_tpls (w : wst) : wst := fold_left (fun w t => put_tpl t w) sort_tpls w.

  (** fpdf.go:3272-3323 [putImportedTemplates] *)
  Fixpoint index_of (h : bytes) (l : list (bytes * (bytes * list (Z * bytes)))) (i : Z) : Z :=
    match l with
    | [] => 0                                  (* hashToObjID[h], missing: 0 *)
    | (k, _) :: t => if beqb h k then i else index_of h t (i + 1)
    end.
  Definition pad40 (b : bytes) : bytes := repeat 32 (40 - length b) +++ b.
  Fixpoint overwrite (pos : Z) (src : bytes) (data : bytes) : option bytes :=
    match src with
    | [] => Some data
    | c :: t => if (0 <=? pos) && (pos <? zlen data) then overwrite (pos + 1) t (set_nth (Z.to_nat pos) c data) else None
    end.
  Fixpoint patch (objs : list (bytes * (bytes * list (Z * bytes)))) (off : Z) (ps : list (Z * bytes)) (data : bytes) : option bytes :=
    match ps with
    | [] => Some data
    | (pos, h) :: t =>
        match overwrite pos (firstn 40 (pad40 (dec (index_of h objs off)))) data with
        | Some data' => patch objs off t data'
        | None => None
        end
    end.
  Definition put_imported (w : wst) : wst :=
    let off := w_n w + 1 in
    let objs := shuffle 10 _ (d_impobjs d) in
    let w := iteri (fun j e w => set_tab ((SImp (fst e), off + j) :: w_tab w) w) 0 objs w in
    fold_left (fun w e =>
      let '(data, w) := match patch objs off (shuffle 11 _ (snd (snd e))) (fst (snd e)) with
                        | Some x => (x, w) | None => ([], panic w) end in
      out data (newobj w)) objs w.

  (** fpdf.go:4441-4477 [putxobjectdict] *)
  Definition put_xobjects (w : wst) : wst :=
    let w := fold_left (fun w e => out (bs "/I" +++ im_id (snd e) +++ bs " " +++ dec (saved (SImg (im_ptr (snd e))) w) +++ bs " 0 R") w)
                       (keyed 12 (d_sort d) (fun a b => bltb (im_id (snd a)) (im_id (snd b))) (d_images d)) w in
    let w := fold_left (fun w e => match find_slot (STpl (tpl_id (snd e))) (w_tab w) with
                                   | Some n => out (bs "/TPL" +++ tpl_id (snd e) +++ bs " " +++ dec n +++ bs " 0 R") w
                                   | None => w end)
                       (keyed 13 (d_sort d) by_key (d_tpls d)) w in
    fold_left (fun w e => out (fst e +++ bs " " +++ dec (saved (SImp (snd e)) w) +++ bs " 0 R") w)
              (shuffle 14 _ (d_imptpls d)) w.

  (** fpdf.go:4479-4520 [putresourcedict] with layer.go:95-104 [layerPutResourceDict] and spotcolor.go:178-184 [spotColorPutResourceDict] *)
  Definition put_resource_dict (w : wst) : wst :=
    let w := out (bs "/ProcSet [/PDF /Text /ImageB /ImageC /ImageI]") w in
    let w := out (bs "/Font <<") w in
    let w := fold_left (fun w e => out (bs "/F" +++ fo_id (snd e) +++ bs " " +++ dec (saved (SFont (fst e)) w) +++ bs " 0 R") w)
                       (keyed 15 (d_sort d) (fun a b => bltb (fo_id (snd a)) (fo_id (snd b))) (d_fonts d)) w in
    let w := out (bs ">>") w in
    let w := out (bs "/XObject <<") w in
    let w := put_xobjects w in
    let w := out (bs ">>") w in
    let w := if 0 <? zlen (d_blends d) then
               let w := out (bs "/ExtGState <<") w in
               let w := iteri (fun j b w => out (bs "/GS" +++ dec j +++ bs " " +++ dec (saved (SBlend j) w) +++ bs " 0 R") w) 1 (d_blends d) w in
               out (bs ">>") w
             else w in
    let w := if 0 <? zlen (d_grads d) then
               let w := out (bs "/Shading <<") w in
               let w := iteri (fun j b w => out (bs "/Sh" +++ dec j +++ bs " " +++ dec (saved (SGrad j) w) +++ bs " 0 R") w) 1 (d_grads d) w in
               out (bs ">>") w
             else w in
    let w := if 0 <? zlen (d_layers d) then
               let w := out (bs "/Properties <<") w in
               let w := iteri (fun j b w => out (bs "/OC" +++ dec j +++ bs " " +++ dec (saved (SLayer j) w) +++ bs " 0 R") w) 0 (d_layers d) w in
               out (bs ">>") w
             else w in
    let w := out (bs "/ColorSpace <<") w in
    let w := fold_left (fun w e => out (bs "/CS" +++ dec (sp_id (snd e)) +++ bs " " +++ dec (saved (SSpot (fst e)) w) +++ bs " 0 R") w)
                       (shuffle 16 _ (d_spots d)) w in
    out (bs ">>") w.

  (** fpdf.go:4559-4576 [putjavascript] *)
  Definition put_javascript (w : wst) : wst :=
    match d_js d with
    | None => w
    | Some js =>
        let w := newobj w in
        let w := save SJs w in
        let w := out (bs "<<") w in
        let w := out (bs "/Names [(EmbeddedJS) " +++ dec (w_n w + 1) +++ bs " 0 R]") w in
        let w := out (bs ">>") w in
        let w := out (bs "endobj") w in
        let w := newobj w in
        let w := out (bs "<<") w in
        let w := out (bs "/S /JavaScript") w in
        let (t, w) := textstr js w in
        let w := out (bs "/JS " +++ t) w in
        let w := out (bs ">>") w in
        out (bs "endobj") w
    end.

  Definition put_encrypt (w : wst) : wst :=
    match d_protect d with
    | None => w
    | Some p =>
        let w := newobj w in
        let w := save SEnc w in
        let w := out (bs "<<") w in
        let w := out (bs "/Filter /Standard") w in
        let w := out (bs "/V 1") w in
        let w := out (bs "/R 2") w in
        let w := out (bs "/O (" +++ escape (pr_o p) +++ bs ")") w in
        let w := out (bs "/U (" +++ escape (pr_u p) +++ bs ")") w in
        let w := out (bs "/P " +++ dec (pr_p p)) w in
        let w := out (bs ">>") w in
        out (bs "endobj") w
    end.

  (** the objects written before the resource dictionary *)
  Definition put_res_objects (w : wst) : wst :=
    let w := iteri put_layer 0 (d_layers d) w in
    let w := iteri put_blend 1 (d_blends d) w in
    let w := iteri put_grad 1 (d_grads d) w in
    let w := fold_left (fun w e => put_spot e w) (shuffle 17 _ (d_spots d)) w in
    put_fonts w.

  (** fpdf.go:4578-4615 [putresources] *)
  Definition put_resources (w : wst) : wst :=
    if w_err w then w
    else
      let w := put_res_objects w in
      if w_err w then w
      else
        let w := put_images w in
        let w := put_tpls w in
        let w := put_imported w in
        let w := set_off 2 (zlen (w_buf w)) w in
        let w := out (bs "2 0 obj") w in
        let w := out (bs "<<") w in
        let w := put_resource_dict w in
        let w := out (bs ">>") w in
        let w := out (bs "endobj") w in
        let w := put_javascript w in
        put_encrypt w.

  (** ** Bookmarks *)
  Record onode := { on_parent : Z; on_first : Z; on_last : Z; on_next : Z; on_prev : Z }.
  Definition on_parent_set v o := {| on_parent := v; on_first := on_first o; on_last := on_last o; on_next := on_next o; on_prev := on_prev o |}.
  Definition on_first_set v o := {| on_parent := on_parent o; on_first := v; on_last := on_last o; on_next := on_next o; on_prev := on_prev o |}.
  Definition on_last_set v o := {| on_parent := on_parent o; on_first := on_first o; on_last := v; on_next := on_next o; on_prev := on_prev o |}.
  Definition on_next_set v o := {| on_parent := on_parent o; on_first := on_first o; on_last := on_last o; on_next := v; on_prev := on_prev o |}.
  Definition on_prev_set v o := {| on_parent := on_parent o; on_first := on_first o; on_last := on_last o; on_next := on_next o; on_prev := v |}.
  Definition upd (i : Z) (g : onode -> onode) (l : list onode) : list onode :=
    match at_ l i with Some o => set_nth (Z.to_nat i) (g o) l | None => l end.
  Fixpoint lru_get (k : Z) (l : list (Z * Z)) : Z :=
    match l with [] => 0 | (x, v) :: t => if k =? x then v else lru_get k t end.

  (** fpdf.go:4730-4749: the loop that links the items; Bookmark
      (fpdf.go:2194-2202 [Bookmark]) creates them with parent 0 and -1 links *)
  Fixpoint link_loop (nb : Z) (i : Z) (levels : list Z) (lru : list (Z * Z)) (level : Z) (ns : list onode)
      : list onode * list (Z * Z) :=
    match levels with
    | [] => (ns, lru)
    | lv :: rest =>
        let ns :=
          if 0 <? lv then
            let parent := lru_get (lv - 1) lru in
            let ns := upd i (on_parent_set parent) ns in
            let ns := upd parent (on_last_set i) ns in
            if level <? lv then upd parent (on_first_set i) ns else ns
          else upd i (on_parent_set nb) ns in
        let ns :=
          if (lv <=? level) && (0 <? i) then
            let prev := lru_get lv lru in
            upd i (on_prev_set prev) (upd prev (on_next_set i) ns)
          else ns in
        link_loop nb (i + 1) rest ((lv, i) :: lru) lv ns
    end.
  Definition fresh_node : onode := {| on_parent := 0; on_first := -1; on_last := -1; on_next := -1; on_prev := -1 |}.
  Definition link_outlines (levels : list Z) : list onode * list (Z * Z) :=
    link_loop (zlen levels) 0 levels [] 0 (repeat fresh_node (length levels)).

  Definition put_outline (n : Z) (e : outline num * onode) (w : wst) : wst :=
    let (o, x) := e in
    let w := newobj w in
    let (t, w) := textstr (ou_text o) w in
    let w := out (bs "<</Title " +++ t) w in
    let w := out (bs "/Parent " +++ dec (n + on_parent x) +++ bs " 0 R") w in
    let w := if on_prev x =? -1 then w else out (bs "/Prev " +++ dec (n + on_prev x) +++ bs " 0 R") w in
    let w := if on_next x =? -1 then w else out (bs "/Next " +++ dec (n + on_next x) +++ bs " 0 R") w in
    let w := if on_first x =? -1 then w else out (bs "/First " +++ dec (n + on_first x) +++ bs " 0 R") w in
    let w := if on_last x =? -1 then w else out (bs "/Last " +++ dec (n + on_last x) +++ bs " 0 R") w in
    let w := out (bs "/Dest [" +++ dec (1 + 2 * ou_page o) +++ bs " 0 R /XYZ 0 " +++ fmt2 (nmul (nsub (d_h d) (ou_y o)) (d_k d)) +++ bs " null]") w in
    let w := out (bs "/Count 0>>") w in
    out (bs "endobj") w.

  (** fpdf.go:4725-4776 [putbookmarks] *)
  Definition put_bookmarks (w : wst) : wst :=
    if zlen (d_outlines d) =? 0 then w
    else
      let (nodes, lru) := link_outlines (map (@ou_level num) (d_outlines d)) in
      let n := w_n w + 1 in
      let w := fold_left (fun w e => put_outline n e w) (combine (d_outlines d) nodes) w in
      let w := newobj w in
      let w := save SOutl w in
      let w := out (bs "<</Type /Outlines /First " +++ dec n +++ bs " 0 R") w in
      let w := out (bs "/Last " +++ dec (n + lru_get 0 lru) +++ bs " 0 R>>") w in
      out (bs "endobj") w.

  (** fpdf.go:4715-4723 [putxmp] *)
  Definition put_xmp (w : wst) : wst :=
    if zlen (d_xmp d) =? 0 then w
    else
      let w := newobj w in
      let w := out (bs "<< /Type /Metadata /Subtype /XML /Length " +++ dec (zlen (d_xmp d)) +++ bs " >>") w in
      let w := putstream (d_xmp d) w in
      out (bs "endobj") w.

  (** fpdf.go:4625-4648 [putinfo] *)
  Definition info_line (name s : bytes) (always : bool) (w : wst) : wst :=
    if always || (0 <? zlen s) then
      let (t, w) := textstr s w in out (bs "/" +++ name +++ bs " " +++ t) w
    else w.
  Definition put_info (w : wst) : wst :=
    let w := info_line (bs "Producer") (d_producer d) false w in
    let w := info_line (bs "Title") (d_title d) false w in
    let w := info_line (bs "Subject") (d_subject d) false w in
    let w := info_line (bs "Author") (d_author d) false w in
    let w := info_line (bs "Keywords") (d_keywords d) false w in
    let w := info_line (bs "Creator") (d_creator d) false w in
    let w := info_line (bs "CreationDate") (d_created d) true w in
    info_line (bs "ModDate") (d_modified d) true w.

  (** attachments.go:90-97 [getEmbeddedFiles] *)
  Fixpoint join (sep : bytes) (l : list bytes) : bytes :=
    match l with [] => [] | [x] => x | x :: t => x +++ sep +++ join sep t end.
  Fixpoint embedded_names (i : Z) (l : list Z) (w : wst) : list bytes :=
    match l with
    | [] => []
    | p :: t => (bs "(Attachement" +++ dec i +++ bs ") " +++ dec (att_num p w) +++ bs " 0 R ") :: embedded_names (i + 1) t w
    end.
  Definition embedded_files (w : wst) : bytes :=
    bs "<< /Names [" +++ nl +++ bs " " +++ join nl (embedded_names 1 (d_docatts d) w) +++ bs " " +++ nl +++ bs "] >>".

  (** layer.go:106-121 [layerPutCatalog] *)
  Fixpoint layer_refs (only_hidden : bool) (j : Z) (l : list layer) (w : wst) : bytes :=
    match l with
    | [] => []
    | x :: t => (if only_hidden && la_visible x then [] else dec (saved (SLayer j) w) +++ bs " 0 R ") +++ layer_refs only_hidden (j + 1) t w
    end.

  (** fpdf.go:4650-4696 [putcatalog]; the change of f.pdfVersion for the
      TwoPage layouts comes after the header is written and has no effect *)
  Definition mem (x : bytes) (l : list bytes) : bool := existsb (beqb x) l.
  Definition put_catalog (w : wst) : wst :=
    let w := out (bs "/Type /Catalog") w in
    let w := out (bs "/Pages 1 0 R") w in
    let w := if beqb (d_zoom d) (bs "fullpage") then out (bs "/OpenAction [3 0 R /Fit]") w
             else if beqb (d_zoom d) (bs "fullwidth") then out (bs "/OpenAction [3 0 R /FitH null]") w
             else if beqb (d_zoom d) (bs "real") then out (bs "/OpenAction [3 0 R /XYZ null null 1]") w
             else w in
    let w := if mem (d_layout d) [bs "single"; bs "SinglePage"] then out (bs "/PageLayout /SinglePage") w
             else if mem (d_layout d) [bs "continuous"; bs "OneColumn"] then out (bs "/PageLayout /OneColumn") w
             else if mem (d_layout d) [bs "two"; bs "TwoColumnLeft"] then out (bs "/PageLayout /TwoColumnLeft") w
             else if mem (d_layout d) [bs "TwoColumnRight"] then out (bs "/PageLayout /TwoColumnRight") w
             else if mem (d_layout d) [bs "TwoPageLeft"; bs "TwoPageRight"] then out (bs "/PageLayout /" +++ d_layout d) w
             else w in
    let w := if 0 <? zlen (d_outlines d) then
               out (bs "/PageMode /UseOutlines") (out (bs "/Outlines " +++ dec (saved SOutl w) +++ bs " 0 R") w)
             else w in
    let w := if 0 <? zlen (d_layers d) then
               let on := layer_refs false 0 (d_layers d) w in
               let off := layer_refs true 0 (d_layers d) w in
               let w := out (bs "/OCProperties <</OCGs [" +++ on +++ bs "] /D <</OFF [" +++ off +++ bs "] /Order [" +++ on +++ bs "]>>>>") w in
               if d_pane d then out (bs "/PageMode /UseOC") w else w
             else w in
    let w := out (bs "/Names <<") w in
    let w := match d_js d with Some _ => out (bs "/JavaScript " +++ dec (saved SJs w) +++ bs " 0 R") w | None => w end in
    let w := out (bs "/EmbeddedFiles " +++ embedded_files w) w in
    out (bs ">>") w.

  (** fpdf.go:4705-4713 [puttrailer] *)
  Definition put_trailer (w : wst) : wst :=
    let w := out (bs "/Size " +++ dec (w_n w + 1)) w in
    let w := out (bs "/Root " +++ dec (w_n w) +++ bs " 0 R") w in
    let w := out (bs "/Info " +++ dec (w_n w - 1) +++ bs " 0 R") w in
    match d_protect d with
    | Some _ => out (bs "/ID [()()]") (out (bs "/Encrypt " +++ dec (saved SEnc w) +++ bs " 0 R") w)
    | None => w
    end.

  (** fpdf.go:4813-4817: the cross-reference table; f.offsets[j] panics out of range *)
  Fixpoint xref_lines (j : Z) (k : nat) (w : wst) : wst :=
    match k with
    | O => w
    | S k' =>
        let w := match at_ (w_offs w) j with
                 | Some o => out (dec_pad 10 o +++ bs " 00000 n ") w
                 | None => panic w end in
        xref_lines (j + 1) k' w
    end.
  Definition put_xref (w : wst) : wst :=
    let o := zlen (w_buf w) in
    let w := out (bs "xref") w in
    let w := out (bs "0 " +++ dec (w_n w + 1)) w in
    let w := out (bs "0000000000 65535 f ") w in
    let w := xref_lines 1 (Z.to_nat (w_n w)) w in
    let w := out (bs "trailer") w in
    let w := out (bs "<<") w in
    let w := put_trailer w in
    let w := out (bs ">>") w in
    let w := out (bs "startxref") w in
    let w := out (dec o) w in
    out (bs "%%EOF") w.

  Definition put_info_obj (w : wst) : wst :=
    let w := newobj w in
    let w := out (bs "<<") w in
    let w := put_info w in
    let w := out (bs ">>") w in
    out (bs "endobj") w.
  Definition put_catalog_obj (w : wst) : wst :=
    let w := newobj w in
    let w := out (bs "<<") w in
    let w := put_catalog w in
    let w := out (bs ">>") w in
    out (bs "endobj") w.

  (** fpdf.go:4778-4826 [enddoc] *)
  Definition enddoc (w : wst) : wst :=
    if w_err w then w
    else
      let w := out (bs "%PDF-" +++ version2) w in
      let w := put_attachments w in
      let w := put_annot_attachments w in
      let w := put_pages w in
      let w := put_resources w in
      if w_err w then w
      else
        let w := put_bookmarks w in
        let w := put_xmp w in
        let w := put_info_obj w in
        let w := put_catalog_obj w in
        put_xref w.
End Doc.
