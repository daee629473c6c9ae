(** What registering and using an image must do. *)
From Verif Require Import Base PngModel ImgModel.
From Coq Require Import String.
Open Scope Z_scope.
Notation length := List.length.

Section Spec.
  Context {num place : Type} (e : env num).
  (** ** The type of an image, given as a word in any case *)
  Inductive kind := Jpg | Png | Gif.
  Definition lc (c : Z) : Z := if (65 <=? c) && (c <=? 90) then c + 32 else c.
  Definition says (ty : bytes) (k : kind) : Prop :=
    match k with Jpg => map lc ty = bs "jpg" \/ map lc ty = bs "jpeg" | Png => map lc ty = bs "png" | Gif => map lc ty = bs "gif" end.
  Definition extension (file t : bytes) : Prop := exists p, file = p ++ [46] ++ t /\ ~ In 46 t.

  (** ** What contents of a type mean: the image, and its resolution *)
  (** a JPEG file is embedded as it is *)
  Definition jpeg_body (w h : Z) (cs b : bytes) : body :=
    {| b_w := w; b_h := h; b_cs := cs; b_bpc := 8; b_f := bs "DCTDecode"; b_dp := []; b_pal := []; b_trns := []; b_smask := None; b_data := b |}.
  Definition space (m : cmodel) : option bytes :=
    match m with GrayModel => Some (bs "DeviceGray") | YCbCrModel => Some (bs "DeviceRGB") | CMYKModel => Some (bs "DeviceCMYK") | OtherModel => None end.
  (** the parts of a PNG file PngModel.v finds (C36, C59, C60) *)
  Definition png_body (i : info) : body :=
    {| b_w := i_w i; b_h := i_h i; b_cs := i_cs i; b_bpc := i_bpc i; b_f := bs "FlateDecode"; b_dp := i_dp i; b_pal := i_pal i; b_trns := i_trns i; b_smask := i_smask i; b_data := i_data i |}.
  Inductive holds (readdpi : bool) : kind -> bytes -> body -> num -> Prop :=
  | holds_jpg b w h m cs : jpeg e b = inl (w, h, m) -> space m = Some cs -> holds readdpi Jpg b (jpeg_body w h cs b) (png_dpi e None)
  | holds_png b i : parse_png (inflate e) (deflate e) (itoa e) readdpi b = Ret (i, false) -> holds readdpi Png b (png_body i) (png_dpi e (i_dpi i))
  | holds_gif b p i : gif e b = inl p -> parse_png (inflate e) (deflate e) (itoa e) false p = Ret (i, false) -> holds readdpi Gif b (png_body i) (png_dpi e (i_dpi i)).

  (** ** The calls *)
  (** the call is about the image of this name *)
  Definition about (c : call num place) : option bytes :=
    match c with
    | RegisterImageOptionsReader n _ _ _ | RegisterImageReader n _ _ | RegisterImageOptions n _ _ _ | RegisterImage n _ _ | ImageOptions n _ _ _ _ | Image n _ _ _ => Some n
    | _ => None
    end.
  (** the call offers contents for a name: of the type it says, or of the type of the file's extension *)
  Inductive offers : call num place -> bytes -> bytes -> bool -> bytes -> Prop :=
  | off_reader n ty d b : ty <> [] -> offers (RegisterImageOptionsReader n ty d (inl b)) n ty d b
  | off_reader0 n ty b : ty <> [] -> offers (RegisterImageReader n ty (inl b)) n ty false b
  | off_file n ty d b : ty <> [] -> offers (RegisterImageOptions n ty d (inl (inl b))) n ty d b
  | off_file0 n ty b : ty <> [] -> offers (RegisterImage n ty (inl (inl b))) n ty false b
  | off_image n ty d pl b : ty <> [] -> offers (ImageOptions n ty d pl (inl (inl b))) n ty d b
  | off_image0 n ty pl b : ty <> [] -> offers (Image n ty pl (inl (inl b))) n ty false b
  | off_ext n t d b : extension n t -> offers (RegisterImageOptions n [] d (inl (inl b))) n t d b
  | off_ext0 n t b : extension n t -> offers (RegisterImage n [] (inl (inl b))) n t false b
  | off_image_ext n t d pl b : extension n t -> offers (ImageOptions n [] d pl (inl (inl b))) n t d b
  | off_image_ext0 n t pl b : extension n t -> offers (Image n [] pl (inl (inl b))) n t false b.
  (** the call draws the image on the page *)
  Definition draws (c : call num place) : option place :=
    match c with ImageOptions _ _ _ pl _ | Image _ _ pl _ => Some pl | _ => None end.

  (** ** The document *)
  Definition reachable (s : st num place) : Prop := exists cs, run e cs new = Ret s.
  (** the image a name stands for *)
  Definition image_of (s : st num place) (name : bytes) : option (pic num) := match get_info name s with Some p => nth_error (m_pics s) p | None => None end.
  (** the same image, whatever resolution it was given *)
  Definition same_image (i j : pic num) : Prop := p_body i = p_body j /\ p_id i = p_id j.
End Spec.
