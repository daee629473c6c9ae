(** Specification for C62: what the objects of a PDF file must contain so that a name of the resource
    dictionary stands for the font, image, template, transparency state, gradient, layer or spot color
    the document has under that name (ISO 32000-1, 7.8.3, 8.9.5, 8.10, 9.6, 9.7, 11.6.4.4, 14.11.5).
    Only the description of the document (the records of DocModel) is used, not the functions that write
    the file.  [O k b]: the object with number k has the body b. *)
From Verif Require Import Base TextModel Crypto DocModel DocSpec DocSort DocRes2.
From Coq Require Import String Permutation.
Open Scope Z_scope.
Notation length := List.length.
Local Notation "a +++ b" := (List.app a b) (at level 60, right associativity, only parsing).

Definition ref (k : Z) : bytes := dec k +++ bs " 0 R".
(** a line of a dictionary, present only if [b] *)
Definition line_if (b : bool) (s : bytes) : bytes := if b then s +++ eol else [].
Definition some_bytes (s : bytes) : bool := match s with [] => false | _ => true end.

Section Spec.
  Context {E : env} (d : doc (e_num E)) (O : Z -> bytes -> Prop).
  (** [S k data]: the bytes data as object k keeps them, encrypted if the document is *)
  Variable S : Z -> bytes -> bytes.

  (** object k is a stream with this dictionary and these data *)
  Definition stream_obj (k : Z) (dict data : bytes) : Prop :=
    O k (dict +++ bs "stream" +++ eol +++ S k data +++ eol +++ bs "endstream" +++ eol).

  (** ** Images *)
  Definition image_dict_text (w h : Z) (cs : bytes) (bpc : Z) (filter dp : bytes) (trns : list Z) (sm : bytes) (len : Z) : bytes :=
    bs "<</Type /XObject" +++ eol +++ bs "/Subtype /Image" +++ eol +++
    bs "/Width " +++ dec w +++ eol +++ bs "/Height " +++ dec h +++ eol +++
    cs +++ bs "/BitsPerComponent " +++ dec bpc +++ eol +++
    line_if (some_bytes filter) (bs "/Filter /" +++ filter) +++
    line_if (some_bytes dp) (bs "/DecodeParms <<" +++ dp +++ bs ">>") +++
    line_if (match trns with [] => false | _ => true end)
       (bs "/Mask [" +++ List.concat (map (fun v => dec v +++ bs " " +++ dec v +++ bs " ") trns) +++ bs "]") +++
    sm +++ bs "/Length " +++ dec len +++ bs ">>" +++ eol.
  (** the palette of an indexed image *)
  Definition palette_at (k : Z) (pal : bytes) : Prop :=
    if d_compress d
    then stream_obj k (bs "<</Filter /FlateDecode /Length " +++ dec (zlength (e_zlib E pal)) +++ bs ">>" +++ eol) (e_zlib E pal)
    else stream_obj k (bs "<</Length " +++ dec (zlength pal) +++ bs ">>" +++ eol) pal.
  Definition color_space (im : image) (cs : bytes) : Prop :=
    if beqb (im_cs im) (bs "Indexed") then
      exists kp, cs = bs "/ColorSpace [/Indexed /DeviceRGB " +++ dec (Z.quot (zlength (im_pal im)) 3 - 1) +++ bs " " +++ ref kp +++ bs "]" +++ eol /\
        palette_at kp (im_pal im)
    else cs = bs "/ColorSpace /" +++ im_cs im +++ eol +++ line_if (beqb (im_cs im) (bs "DeviceCMYK")) (bs "/Decode [1 0 1 0 1 0 1 0]").
  (** a soft mask: a gray image of the same size, 8 bits per sample *)
  Definition soft_mask (im : image) (sm : bytes) : Prop :=
    match im_smask im with
    | None => sm = []
    | Some m => exists ks, sm = bs "/SMask " +++ ref ks +++ eol /\
        stream_obj ks (image_dict_text (im_w im) (im_h im) (bs "/ColorSpace /DeviceGray" +++ eol) 8 (im_filter im)
                         (bs "/Predictor 15 /Colors 1 /BitsPerComponent 8 /Columns " +++ dec (im_w im)) [] [] (zlength m)) m
    end.
  Definition image_at (k : Z) (im : image) : Prop :=
    exists cs sm, color_space im cs /\ soft_mask im sm /\
      stream_obj k (image_dict_text (im_w im) (im_h im) cs (im_bpc im) (im_filter im) (im_dp im) (im_trns im) sm (zlength (im_data im))) (im_data im).

  (** ** Fonts *)
  Definition standard_at (k : Z) (fo : font) : Prop :=
    O k (bs "<</Type /Font" +++ eol +++ bs "/BaseFont /" +++ fo_name fo +++ eol +++ bs "/Subtype /Type1" +++ eol +++
         line_if (negb (beqb (fo_name fo) (bs "Symbol")) && negb (beqb (fo_name fo) (bs "ZapfDingbats"))) (bs "/Encoding /WinAnsiEncoding") +++
         bs ">>" +++ eol).
  (** the encoding of a font: one of the encodings of the document, or the standard one *)
  Definition encoding_at (fo : font) (enc : bytes) : Prop :=
    if 0 <? fo_diffn fo then
      exists ke diff, enc = ref ke /\ nth_error (d_diffs d) (Z.to_nat (fo_diffn fo - 1)) = Some diff /\
        O ke (bs "<</Type /Encoding /BaseEncoding /WinAnsiEncoding /Differences [" +++ diff +++ bs "]>>" +++ eol)
    else enc = bs "/WinAnsiEncoding".
  (** the program of a font: the content of its file.  A Type1 file that is not compressed consists of two segments
      of [ff_len1] and [ff_len2] bytes, each after a header of 6 bytes; its program is the two segments *)
  Definition compressed_name (file : bytes) : bool := beqb (skipn (length file - 2) file) (bs ".z").
  Definition font_program (file : bytes) (info : fontfile) (content data : bytes) : Prop :=
    if negb (compressed_name file) && (0 <? ff_len2 info)
    then exists h1 a h2 b t, content = h1 +++ a +++ h2 +++ b +++ t /\ zlength h1 = 6 /\ zlength a = ff_len1 info /\
           zlength h2 = 6 /\ zlength b = ff_len2 info /\ data = a +++ b
    else data = content.
  Definition file_at (k : Z) (file : bytes) (info : fontfile) : Prop :=
    exists content data, ff_content info = Some content /\ font_program file info content data /\
      stream_obj k (bs "<</Length " +++ dec (zlength data) +++ eol +++
        line_if (compressed_name file) (bs "/Filter /FlateDecode") +++
        bs "/Length1 " +++ dec (ff_len1 info) +++ eol +++
        line_if (0 <? ff_len2 info) (bs "/Length2 " +++ dec (ff_len2 info) +++ bs " /Length3 0") +++ bs ">>" +++ eol) data.

  Definition bbox (fd : fdesc) : bytes :=
    bs "/FontBBox [" +++ dec (fd_xmin fd) +++ bs " " +++ dec (fd_ymin fd) +++ bs " " +++ dec (fd_xmax fd) +++ bs " " +++ dec (fd_ymax fd) +++ bs "] ".
  (** widths of the characters 32 to 255 *)
  Definition widths_at (k : Z) (cw : list Z) : Prop :=
    exists ws, length ws = 224%nat /\ (forall i, (i < 224)%nat -> nth_error ws i = nth_error cw (32 + i)) /\
      O k (bs "[" +++ List.concat (map (fun v => dec v +++ bs " ") ws) +++ bs "]" +++ eol).
  Definition simple_descriptor_at (k : Z) (t1 : bool) (fo : font) : Prop :=
    let fd := fo_desc fo in
    exists kf info, In (fo_file fo, info) (d_files d) /\ file_at kf (fo_file fo) info /\
      O k (bs "<</Type /FontDescriptor /FontName /" +++ fo_name fo +++ bs " "
           +++ bs "/Ascent " +++ dec (fd_ascent fd) +++ bs " /Descent " +++ dec (fd_descent fd)
           +++ bs " /CapHeight " +++ dec (fd_capheight fd) +++ bs " /Flags " +++ dec (fd_flags fd) +++ bs " "
           +++ bbox fd +++ bs "/ItalicAngle " +++ dec (fd_italic fd) +++ bs " /StemV " +++ dec (fd_stemv fd)
           +++ bs " /MissingWidth " +++ dec (fd_missing fd) +++ bs " /FontFile" +++ (if t1 then [] else bs "2") +++ bs " " +++ ref kf +++ bs ">>" +++ eol).
  Definition simple_at (k : Z) (t1 : bool) (fo : font) : Prop :=
    exists kw kd enc, widths_at kw (fo_cw fo) /\ simple_descriptor_at kd t1 fo /\ encoding_at fo enc /\
      O k (bs "<</Type /Font" +++ eol +++ bs "/BaseFont /" +++ fo_name fo +++ eol +++
           bs "/Subtype /" +++ (if t1 then bs "Type1" else bs "TrueType") +++ eol +++
           bs "/FirstChar 32 /LastChar 255" +++ eol +++ bs "/Widths " +++ ref kw +++ eol +++
           bs "/FontDescriptor " +++ ref kd +++ eol +++ bs "/Encoding " +++ enc +++ eol +++ bs ">>" +++ eol).

  (** a UTF-8 font: a composite font, the identity encoding, the font program and the map from characters to glyphs *)
  (** the glyph g of character c, high byte first, at position 2c; 0 for characters without glyph *)
  Definition glyph_map (gids : list (Z * Z)) (m : bytes) : Prop :=
    zlength m = 131072 /\
    forall c, 0 <= c < 65536 ->
      let g := match find (fun p => fst p =? c) (rev gids) with Some p => snd p | None => 0 end in
      nth_error m (Z.to_nat (2 * c)) = Some ((g / 256) mod 256) /\ nth_error m (Z.to_nat (2 * c + 1)) = Some (g mod 256).
  Definition utf8_at (k : Z) (fo : font) : Prop :=
    let fd := fo_desc fo in
    let name := bs "utf8" +++ fo_name fo in
    exists kc ku ki kd km kf gm,
      O k (bs "<</Type /Font" +++ eol +++ bs "/Subtype /Type0" +++ eol +++ bs "/BaseFont /" +++ name +++ eol +++
           bs "/Encoding /Identity-H" +++ eol +++ bs "/DescendantFonts [" +++ ref kc +++ bs "]" +++ eol +++ bs "/ToUnicode " +++ ref ku +++ bs ">>" +++ eol) /\
      O kc (bs "<</Type /Font" +++ eol +++ bs "/Subtype /CIDFontType2" +++ eol +++ bs "/BaseFont /" +++ name +++ eol +++
            bs "/CIDSystemInfo " +++ ref ki +++ eol +++ bs "/FontDescriptor " +++ ref kd +++ eol +++
            line_if (negb (fd_missing fd =? 0)) (bs "/DW " +++ dec (fd_missing fd)) +++
            fo_wtext fo +++ eol +++ bs "/CIDToGIDMap " +++ ref km +++ bs ">>" +++ eol) /\
      stream_obj ku (bs "<</Length " +++ dec (zlength (e_to_unicode E)) +++ bs ">>" +++ eol) (e_to_unicode E) /\
      O ki (bs "<</Registry (Adobe)" +++ eol +++ bs "/Ordering (UCS)" +++ eol +++ bs "/Supplement 0>>" +++ eol) /\
      (* symbolic, not non-symbolic: bits 4 and 32 of the flags *)
      O kd (bs "<</Type /FontDescriptor /FontName /" +++ name +++ eol +++ bs " /Ascent " +++ dec (fd_ascent fd)
            +++ bs " /Descent " +++ dec (fd_descent fd) +++ bs " /CapHeight " +++ dec (fd_capheight fd)
            +++ bs " /Flags " +++ dec (Z.ldiff (Z.lor (fd_flags fd) 4) 32) +++ bbox fd
            +++ bs " /ItalicAngle " +++ dec (fd_italic fd) +++ bs " /StemV " +++ dec (fd_stemv fd)
            +++ bs " /MissingWidth " +++ dec (fd_missing fd) +++ bs "/FontFile2 " +++ ref kf +++ bs ">>" +++ eol) /\
      glyph_map (fo_gids fo) gm /\
      stream_obj km (bs "<</Length " +++ dec (zlength (e_zlib E gm)) +++ bs "/Filter /FlateDecode>>" +++ eol) (e_zlib E gm) /\
      stream_obj kf (bs "<</Length " +++ dec (zlength (e_zlib E (fo_utf8 fo))) +++ eol +++ bs "/Filter /FlateDecode" +++ eol +++
        bs "/Length1 " +++ dec (zlength (fo_utf8 fo)) +++ eol +++ bs ">>" +++ eol) (e_zlib E (fo_utf8 fo)).

  Definition font_at (k : Z) (fo : font) : Prop :=
    match fo_type fo with
    | FCore => standard_at k fo
    | FType1 => simple_at k true fo
    | FTrueType => simple_at k false fo
    | FUtf8 => utf8_at k fo
    | FOther => False
    end.

  (** ** Layers, transparency states, gradients and spot colors *)
  Definition layer_at (k : Z) (l : layer) : Prop :=
    exists name, utf8toutf16 (la_name l) true = Ret name /\
      O k (bs "<</Type /OCG /Name (" +++ escape (S k name) +++ bs ")>>" +++ eol).
  Definition blend_at (k : Z) (b : blend) : Prop :=
    O k (bs "<</Type /ExtGState /ca " +++ bl_fill b +++ bs " /CA " +++ bl_stroke b +++ bs " /BM /" +++ bl_mode b +++ bs ">>" +++ eol).
  Definition gradient_at (k : Z) (g : gradient (e_num E)) : Prop :=
    let n := e_fmt5 E in
    exists kf, O kf (bs "<</FunctionType 2 /Domain [0.0 1.0] /C0 [" +++ gr_c1 g +++ bs "] /C1 [" +++ gr_c2 g +++ bs "] /N 1>>" +++ eol) /\
      O k (bs "<</ShadingType " +++ dec (gr_tp g) +++ bs " /ColorSpace /DeviceRGB" +++ eol +++ bs "/Coords [" +++
           (if gr_tp g =? 2 then n (gr_x1 g) +++ bs " " +++ n (gr_y1 g) +++ bs " " +++ n (gr_x2 g) +++ bs " " +++ n (gr_y2 g)
            else n (gr_x1 g) +++ bs " " +++ n (gr_y1 g) +++ bs " 0 " +++ n (gr_x2 g) +++ bs " " +++ n (gr_y2 g) +++ bs " " +++ n (gr_r g)) +++
           bs "] /Function " +++ ref kf +++ bs " /Extend [true true]>>" +++ eol).
  (** spaces in the name are written #20 *)
  Definition escape_name (s : bytes) : bytes := List.concat (map (fun c => if c =? 32 then bs "#20" else [c]) s).
  Definition spot_at (k : Z) (name : bytes) (v : spot) : Prop :=
    O k (bs "[/Separation /" +++ escape_name name +++ eol +++ bs "/DeviceCMYK <<" +++ eol +++
         bs "/Range [0 1 0 1 0 1 0 1] /C0 [0 0 0 0] " +++ eol +++
         bs "/C1 [" +++ e_pct3 E (sp_c v) +++ bs " " +++ e_pct3 E (sp_m v) +++ bs " " +++ e_pct3 E (sp_y v) +++ bs " " +++ e_pct3 E (sp_k v) +++ bs "] " +++ eol +++
         bs "/FunctionType 2 /Domain [0 1] /N 1>>]" +++ eol).

  (** ** Names: a part of the resource dictionary is a list of names, each with the number of its object *)
  Definition names (l : list (bytes * Z)) : bytes := List.concat (map (fun e => bs "/" +++ fst e +++ bs " " +++ ref (snd e) +++ eol) l).
  Definition section (title : bytes) (l : list (bytes * Z)) : bytes := title +++ bs " <<" +++ eol +++ names l +++ bs ">>" +++ eol.

  (** every thing of the document has its name in the list, and every name of the list stands for a thing of the document *)
  Definition naming {A} (things : A -> Prop) (name : A -> bytes) (at_number : Z -> A -> Prop) (l : list (bytes * Z)) : Prop :=
    (forall a, things a -> exists k, In (name a, k) l) /\
    (forall n k, In (n, k) l -> exists a, things a /\ n = name a /\ at_number k a).
  Definition font_names (l : list (bytes * Z)) : Prop :=
    naming (fun e => In e (d_fonts d)) (fun e => bs "F" +++ fo_id (snd e)) (fun k e => font_at k (snd e)) l.

  (** ** Templates: form objects with the names their content may use *)
  Inductive template_at : Z -> tpl (e_num E) -> Prop :=
  | template_obj k ptr id cx cy moved wd ht content images subs fonts imgs tpls :
      font_names fonts ->
      (forall i, In i images -> exists k', In (bs "I" +++ im_id (snd i), k') imgs) ->
      (forall n k', In (n, k') imgs -> exists i, In i images /\ n = bs "I" +++ im_id (snd i) /\ image_at k' (snd i)) ->
      (forall s, In s subs -> exists k', In (bs "TPL" +++ tpl_id s, k') tpls) ->
      (forall n k', In (n, k') tpls -> exists s, In s subs /\ n = bs "TPL" +++ tpl_id s /\ template_at k' s) ->
      let m x := e_nmul E x (d_k d) in
      let data := if d_compress d then e_zlib E content else content in
      stream_obj k
        (bs "<<" +++ (if d_compress d then bs "/Filter /FlateDecode " else []) +++ bs "/Type /XObject" +++ eol +++
         bs "/Subtype /Form" +++ eol +++ bs "/Formtype 1" +++ eol +++
         bs "/BBox [" +++ e_fmt2 E (m cx) +++ bs " " +++ e_fmt2 E (m cy) +++ bs " " +++ e_fmt2 E (m (e_nadd E cx wd)) +++ bs " " +++ e_fmt2 E (m (e_nadd E cy ht)) +++ bs "]" +++ eol +++
         line_if moved (bs "/Matrix [1 0 0 1 " +++ e_fmt5 E (e_nmul E (m (e_nopp E cx)) (e_ntwo E)) +++ bs " " +++ e_fmt5 E (e_nmul E (m cy) (e_ntwo E)) +++ bs "]") +++
         bs "/Resources " +++ eol +++ bs "<</ProcSet [/PDF /Text /ImageB /ImageC /ImageI]" +++ eol +++
         section (bs "/Font") fonts +++
         (match images, subs with [], [] => [] | _, _ => section (bs "/XObject") (imgs +++ tpls) end) +++
         bs ">>" +++ eol +++ bs "/Length " +++ dec (zlength data) +++ bs " >>" +++ eol) data ->
      template_at k (Tpl ptr id cx cy moved wd ht content images subs).
End Spec.

(** ** The resource dictionary of the document, object 2 *)
Definition unless_empty {A} (l : list A) (s : bytes) : bytes := match l with [] => [] | _ => s end.
(** the things of a list, with their positions, the first at [j0] *)
Definition numbered {A} (l : list A) (j0 : Z) (p : Z * A) : Prop := j0 <= fst p /\ nth_error l (Z.to_nat (fst p - j0)) = Some (snd p).
(** the names of imported pages; [K h]: the number of the object imported under the hash h *)
Definition imported_names (K : bytes -> Z) (l : list (bytes * bytes)) : bytes := List.concat (map (fun e => fst e +++ bs " " +++ ref (K (snd e)) +++ eol) l).
Definition resource_dictionary {E : env} (d : doc (e_num E)) (O : Z -> bytes -> Prop) (S : Z -> bytes -> bytes) (K : bytes -> Z) (body : bytes) : Prop :=
  exists fonts images templates imported states shadings layers spaces,
    body = bs "<<" +++ eol +++ bs "/ProcSet [/PDF /Text /ImageB /ImageC /ImageI]" +++ eol +++
           section (bs "/Font") fonts +++
           bs "/XObject <<" +++ eol +++ names images +++ names templates +++ imported +++ bs ">>" +++ eol +++
           unless_empty (d_blends d) (section (bs "/ExtGState") states) +++
           unless_empty (d_grads d) (section (bs "/Shading") shadings) +++
           unless_empty (d_layers d) (section (bs "/Properties") layers) +++
           section (bs "/ColorSpace") spaces +++ bs ">>" +++ eol /\
    (exists l, Permutation l (d_imptpls d) /\ imported = imported_names K l) /\
    font_names d O S fonts /\
    naming (fun e => In e (d_images d)) (fun e => bs "I" +++ im_id (snd e)) (fun k e => image_at d O S k (snd e)) images /\
    naming (fun e => In e (d_tpls d)) (fun e => bs "TPL" +++ tpl_id (snd e)) (fun k e => template_at d O S k (snd e)) templates /\
    naming (numbered (d_blends d) 1) (fun p => bs "GS" +++ dec (fst p)) (fun k p => blend_at O k (snd p)) states /\
    naming (numbered (d_grads d) 1) (fun p => bs "Sh" +++ dec (fst p)) (fun k p => gradient_at O k (snd p)) shadings /\
    naming (numbered (d_layers d) 0) (fun p => bs "OC" +++ dec (fst p)) (fun k p => layer_at O S k (snd p)) layers /\
    naming (fun e => In e (d_spots d)) (fun e => bs "CS" +++ dec (sp_id (snd e))) (fun k e => spot_at (E := E) O k (fst e) (snd e)) spaces.

(** ** Imported pages: objects of another file, each under a hash, with the places where they refer to each other *)
(** a number of an object in a field of 40 bytes, after blanks *)
Definition field40 (k : Z) (f : bytes) : Prop := length f = 40%nat /\ exists n, f = repeat 32 n +++ dec k.
(** [b] is [b0] with the references filled in *)
Definition resolved (K : bytes -> Z) (ps : list (Z * bytes)) (b0 b : bytes) : Prop :=
  length b = length b0 /\
  (forall pos h, In (pos, h) ps -> field40 (K h) (firstn 40 (skipn (Z.to_nat pos) b))) /\
  (forall i, (forall pos h, In (pos, h) ps -> ~ (pos <= Z.of_nat i < pos + 40)) -> nth_error b i = nth_error b0 i).
(** the object with the number of its hash holds the data up to its endobj; after that come only line ends *)
Definition imported_at (O : Z -> bytes -> Prop) (K : bytes -> Z) (e : bytes * (bytes * list (Z * bytes))) : Prop :=
  exists b0 ws b, fst (snd e) = b0 +++ bs "endobj" +++ ws /\ Forall (fun c => c = 10) ws /\ resolved K (snd (snd e)) b0 b /\ O (K (fst e)) b.
(** what the importer guarantees: one object for each hash; the references of an object are to imported objects and do not overlap *)
Record imports_sound {E : env} (d : doc (e_num E)) : Prop := {
  im_keys : NoDup (map fst (d_impobjs d));
  im_refs : forall e pos h, In e (d_impobjs d) -> In (pos, h) (snd (snd e)) -> 0 <= pos /\ In h (map fst (d_impobjs d));
  im_apart : forall e p q, In e (d_impobjs d) -> In p (snd (snd e)) -> In q (snd (snd e)) -> p = q \/ fst p + 40 <= fst q \/ fst q + 40 <= fst p }.

(** ** Conditions *)
(** a Type1 file that is not compressed; its two segments are cut out of the file *)
Definition raw_type1 (file : bytes) (info : fontfile) : bool := negb (compressed_name file) && (0 <? ff_len2 info).
(** a soft mask has data; an image with a palette has no soft mask *)
Definition image_sound (im : image) : Prop := im_smask im <> Some [] /\ (im_cs im = bs "Indexed" -> im_smask im = None).
(** what the callers and parsers guarantee about fonts, images, gradients and templates *)
Record resources_sound {E : env} (d : doc (e_num E)) : Prop := {
  (* keys of maps *)
  so_fontkeys : NoDup (map fst (d_fonts d));
  so_filekeys : NoDup (map fst (d_files d));
  so_spotkeys : NoDup (map fst (d_spots d));
  (* the program of a Type1 or TrueType font is embedded, from a file that is not a raw Type1 file; its encoding is one of the document *)
  so_simple : forall e, In e (d_fonts d) -> fo_type (snd e) = FType1 \/ fo_type (snd e) = FTrueType ->
     0 <= fo_diffn (snd e) <= Z.of_nat (length (d_diffs d)) /\
     exists info, In (fo_file (snd e), info) (d_files d) /\ ff_utf8 info = false /\ raw_type1 (fo_file (snd e)) info = false;
  so_files : forall e, In e (d_files d) -> ff_utf8 (snd e) = false -> raw_type1 (fst e) (snd e) = false;
  so_grads : forall g, In g (d_grads d) -> gr_tp g = 2 \/ gr_tp g = 3;
  (* images: a soft mask has data, a palette image has no soft mask; equal pointers are the same image; equal ids have the same content *)
  so_image : forall e, In e (d_images d) -> image_sound (snd e);
  so_imgptr : forall e e', In e (d_images d) -> In e' (d_images d) -> im_ptr (snd e) = im_ptr (snd e') -> snd e = snd e';
  so_imgid : forall e e', In e (d_images d) -> In e' (d_images d) -> im_id (snd e) = im_id (snd e') ->
     snd e' = {| im_ptr := im_ptr (snd e'); im_id := im_id (snd e); im_w := im_w (snd e); im_h := im_h (snd e); im_cs := im_cs (snd e);
                 im_bpc := im_bpc (snd e); im_filter := im_filter (snd e); im_dp := im_dp (snd e); im_trns := im_trns (snd e);
                 im_smask := im_smask (snd e); im_data := im_data (snd e); im_pal := im_pal (snd e) |};
  (* templates: equal ids are the same template; its images are registered in the document *)
  so_tplid : forall e1 e2 a b, In e1 (d_tpls d) -> In e2 (d_tpls d) -> within a (snd e1) -> within b (snd e2) -> tpl_id a = tpl_id b -> a = b;
  so_tplimg : forall e t i, In e (d_tpls d) -> within t (snd e) -> In i (tpl_images t) -> exists e', In e' (d_images d) /\ snd e' = snd i }.

