(** fpdf.go: registering and using images (RegisterImage, RegisterImageOptions, RegisterImageReader, RegisterImageOptionsReader,
    GetImageInfo, Image, ImageOptions, ImageTypeFromMime, and SetDpi of def.go).

    Parameters: [jpeg], jpeg.DecodeConfig: width, height and colour model, or its error; [gif], gif.Decode followed by
    png.Encode; zlib as in PngModel.v; [png_dpi], the resolution newImageInfo (72) or a pHYs chunk gives; [ident],
    generateImageID for an image that has no object number.  [num]: resolutions; [place]: the other arguments of Image, which imageOut (ApiModel.v) turns into
    the size and the position; the page break it may make, and an error there, are not modelled here.
    An *ImageInfoType is a place in the list of all those made.  The value that is returned together with an error is not
    modelled ([None] is returned).  strings.ToLower acts on ASCII only. *)
From Verif Require Import Base PngModel.
From Coq Require Import String.
Open Scope Z_scope.
Notation length := List.length.

Inductive cmodel := GrayModel | YCbCrModel | CMYKModel | OtherModel.
Section Img.
  Context {num place : Type}.
  (** def.go:167-182 (ImageInfoType) without n, scale, dpi and i *)
  Record body := { b_w : Z; b_h : Z; b_cs : bytes; b_bpc : Z; b_f : bytes; b_dp : bytes; b_pal : bytes; b_trns : list Z; b_smask : option bytes; b_data : bytes }.
  Record pic := { p_body : body; p_dpi : num; p_id : bytes }.
  (** what reading gives: bytes or an error *)
  Definition got := (bytes + bytes)%type.
  Record env := { jpeg : bytes -> (Z * Z * cmodel) + bytes; gif : bytes -> bytes + bytes; inflate : bytes -> zres; deflate : bytes -> bytes; itoa : Z -> bytes;
                  png_dpi : option (bool * Z) -> num; ident : body -> num -> bytes + bytes }.
  Variable e : env.
  (** [m_images]: f.images; [m_pics]: all the images made; [m_drawn]: what Image drew, as it was then *)
  Record st := { m_err : option bytes; m_images : bytes -> option nat; m_pics : list pic; m_drawn : list (nat * pic * place) }.
  (** fpdf.go:60-137 *)
  Definition new : st := {| m_err := None; m_images := fun _ => None; m_pics := []; m_drawn := [] |}.
  Definition with_err (x : bytes) (s : st) : st := {| m_err := Some x; m_images := m_images s; m_pics := m_pics s; m_drawn := m_drawn s |}.

  (** fpdf.go:3650-3684 [parsejpg] *)
  Definition parse_jpg (r : got) : (body * num) + bytes :=
    match r with
    | inr x => inr x
    | inl b =>
        match jpeg e b with
        | inr x => inr x
        | inl (w, h, m) =>
            let mk cs := inl ({| b_w := w; b_h := h; b_cs := cs; b_bpc := 8; b_f := bs "DCTDecode"; b_dp := []; b_pal := []; b_trns := []; b_smask := None; b_data := b |}, png_dpi e None) in
            match m with
            | GrayModel => mk (bs "DeviceGray")
            | YCbCrModel => mk (bs "DeviceRGB")
            | CMYKModel => mk (bs "DeviceCMYK")
            | OtherModel => inr (bs "image JPEG buffer has unsupported color space")
            end
        end
    end.
  (** png.go:41-213 [parsepngstream], as PngModel.v has it; png.go:156 sets the filter *)
  Definition parse_stream (readdpi : bool) (b : bytes) : outcome ((body * num) + bytes) :=
    obind (parse_png (inflate e) (deflate e) (itoa e) readdpi b) (fun '(i, bad) =>
      Ret (if bad then inr (bs "PNG") else
        inl ({| b_w := i_w i; b_h := i_h i; b_cs := i_cs i; b_bpc := i_bpc i; b_f := bs "FlateDecode"; b_dp := i_dp i; b_pal := i_pal i; b_trns := i_trns i;
                b_smask := i_smask i; b_data := i_data i |}, png_dpi e (i_dpi i)))).
  (** fpdf.go:3687-3694 [parsepng] *)
  Definition parse_png_reader (readdpi : bool) (r : got) : outcome ((body * num) + bytes) :=
    match r with inr x => Ret (inr x) | inl b => parse_stream readdpi b end.
  (** fpdf.go:3713-3732 [parsegif] *)
  Definition parse_gif (r : got) : outcome ((body * num) + bytes) :=
    match r with inr x => Ret (inr x) | inl b => match gif e b with inr x => Ret (inr x) | inl p => parse_stream false p end end.

  (** strings.ToLower on ASCII *)
  Definition low (s : bytes) : bytes := List.map (fun c => if (65 <=? c) && (c <=? 90) then c + 32 else c) s.
  Definition put (m : bytes -> option nat) (k : bytes) (v : nat) : bytes -> option nat := fun x => if beqb x k then Some v else m x.

  (** fpdf.go:3163-3202 [RegisterImageOptionsReader]; [ty] and [readdpi]: the options; the new state and the image returned *)
  Definition register_reader (name ty : bytes) (readdpi : bool) (r : got) (s : st) : outcome (st * option nat) :=
    match m_err s with Some _ => Ret (s, None) | None =>
    match m_images s name with Some p => Ret (s, Some p) | None =>
    match ty with [] => Ret (with_err (bs "image type should be specified if reading from custom reader") s, None) | _ =>
    let ty := low ty in
    let ty := if beqb ty (bs "jpeg") then bs "jpg" else ty in
    obind (if beqb ty (bs "jpg") then Ret (parse_jpg r)
           else if beqb ty (bs "png") then parse_png_reader readdpi r
           else if beqb ty (bs "gif") then parse_gif r
           else Ret (inr (bs "unsupported image type: " ++ ty))) (fun x =>
    match x with
    | inr x => Ret (with_err x s, None)
    | inl (b, dpi) =>
        match ident e b dpi with
        | inr x => Ret (with_err x s, None)
        | inl i => Ret ({| m_err := None; m_images := put (m_images s) name (length (m_pics s)); m_pics := m_pics s ++ [{| p_body := b; p_dpi := dpi; p_id := i |}]; m_drawn := m_drawn s |},
                        Some (length (m_pics s)))
        end
    end)
    end end end.
  (** strings.LastIndex(s, dot) and the rest: what follows the last dot *)
  Fixpoint after_dot (s : bytes) : option bytes :=
    match s with [] => None | c :: s => match after_dot s with Some t => Some t | None => if c =? 46 then Some s else None end end.
  (** fpdf.go:3224-3248 [RegisterImageOptions]; [o]: what os.Open gives now, and reading then *)
  Definition register_file (file ty : bytes) (readdpi : bool) (o : got + bytes) (s : st) : outcome (st * option nat) :=
    match m_images s file with Some p => Ret (s, Some p) | None =>
    match o with
    | inr x => Ret (with_err x s, None)
    | inl r =>
        match ty with
        | [] => match after_dot file with
                | None => Ret (with_err (bs "image file has no extension and no type was specified: " ++ file) s, None)
                | Some t => register_reader file t readdpi r s
                end
        | _ => register_reader file ty readdpi r s
        end
    end end.
  (** fpdf.go:3112-3122 [ImageOptions]; fpdf.go:3008-3062 [imageOut] reads the size, the resolution and the identifier *)
  Definition image_options (name ty : bytes) (readdpi : bool) (pl : place) (o : got + bytes) (s : st) : outcome (st * option nat) :=
    match m_err s with Some _ => Ret (s, None) | None =>
    obind (register_file name ty readdpi o s) (fun '(s, p) =>
    match m_err s with Some _ => Ret (s, None) | None =>
    match p with
    | None => Panic
    | Some p => match nth_error (m_pics s) p with
                | None => Panic
                | Some i => Ret ({| m_err := m_err s; m_images := m_images s; m_pics := m_pics s; m_drawn := m_drawn s ++ [(p, i, pl)] |}, None)
                end
    end end)
    end.
  (** def.go:260-262 [SetDpi] *)
  Definition set_dpi (p : nat) (d : num) (s : st) : outcome st :=
    match nth_error (m_pics s) p with
    | None => Panic
    | Some i => Ret {| m_err := m_err s; m_images := m_images s; m_pics := firstn p (m_pics s) ++ {| p_body := p_body i; p_dpi := d; p_id := p_id i |} :: skipn (S p) (m_pics s); m_drawn := m_drawn s |}
    end.
  (** fpdf.go:3253-3255 [GetImageInfo] *)
  Definition get_info (name : bytes) (s : st) : option nat := m_images s name.
  (** fpdf.go:2992-3006 [ImageTypeFromMime], with fpdf.go:270-274 [SetErrorf] *)
  Definition type_from_mime (m : bytes) (s : st) : st * bytes :=
    if beqb m (bs "image/png") then (s, bs "png") else if beqb m (bs "image/jpg") then (s, bs "jpg")
    else if beqb m (bs "image/jpeg") then (s, bs "jpg") else if beqb m (bs "image/gif") then (s, bs "gif")
    else (match m_err s with None => with_err (bs "unsupported image type: " ++ m) s | Some _ => s end, []).

  (** the calls; what the files hold comes with each call, as they may change meanwhile *)
  Inductive call :=
  | RegisterImageOptionsReader (name ty : bytes) (readdpi : bool) (r : got)               (* fpdf.go:3163-3202 *)
  | RegisterImageReader (name ty : bytes) (r : got)                                       (* fpdf.go:3128-3134 *)
  | RegisterImageOptions (file ty : bytes) (readdpi : bool) (o : got + bytes)             (* fpdf.go:3224-3248 *)
  | RegisterImage (file ty : bytes) (o : got + bytes)                                     (* fpdf.go:3211-3217 *)
  | ImageOptions (name ty : bytes) (readdpi : bool) (pl : place) (o : got + bytes)        (* fpdf.go:3114-3124 *)
  | Image (name ty : bytes) (pl : place) (o : got + bytes)                                (* fpdf.go:3068-3074 *)
  | SetDpi (p : nat) (d : num)                                                            (* def.go:260-262 *)
  | ImageTypeFromMime (m : bytes)                                                         (* fpdf.go:2992-3006 *)
  | SetError (x : bytes)                                                                  (* fpdf.go:284-288 *)
  | ClearError.                                                                           (* fpdf.go:260-262 *)
  Definition step (c : call) (s : st) : outcome (st * option nat) :=
    match c with
    | RegisterImageOptionsReader name ty d r => register_reader name ty d r s
    | RegisterImageReader name ty r => register_reader name ty false r s
    | RegisterImageOptions file ty d o => register_file file ty d o s
    | RegisterImage file ty o => register_file file ty false o s
    | ImageOptions name ty d pl o => image_options name ty d pl o s
    | Image name ty pl o => image_options name ty false pl o s
    | SetDpi p d => obind (set_dpi p d s) (fun s => Ret (s, None))
    | ImageTypeFromMime m => Ret (fst (type_from_mime m s), None)
    | SetError x => Ret (match m_err s with None => with_err x s | Some _ => s end, None)
    | ClearError => Ret ({| m_err := None; m_images := m_images s; m_pics := m_pics s; m_drawn := m_drawn s |}, None)
    end.
  Fixpoint run (cs : list call) (s : st) : outcome st :=
    match cs with [] => Ret s | c :: cs => obind (step c s) (fun '(s, _) => run cs s) end.
End Img.
Arguments env : clear implicits.
Arguments st : clear implicits.
Arguments pic : clear implicits.
Arguments call : clear implicits.
