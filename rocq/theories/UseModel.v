(** Which resources the contents of pages and templates name, and which resources documents and templates have
    (fpdf.go, template.go, template_impl.go, spotcolor.go, layer.go).  The heap holds the documents (the one an Fpdf
    is, and the one inside each Tpl while its template is drawn), the maps of fonts, which documents share, and the
    templates made so far.  An image is a pointer; two images are the same data iff their identifiers (hashes) are equal.
    Simplified: contents are lists of items, of which only the names are of interest; sizes and positions are left
    out; UTF-8, embedded and core fonts are not told apart; operators written before the first page are dropped. *)
From Verif Require Import Base TextModel.
From Coq Require Import String.
Local Open Scope list_scope.
Open Scope Z_scope.
Notation length := List.length.

(** A name in a content stream: /F (Tf), /I (Do), /TPL (Do), /GS (gs), /Sh (sh), /OC (BDC), /CS (cs, CS) *)
Inductive name := Fn (id : bytes) | Im (id : bytes) | Tp (id : bytes) | Gs (i : Z) | Sh (i : Z) | Oc (i : Z) | Cs (i : Z).
Inductive item := Other (b : bytes) | Named (n : name).
(** def.go:127-134 (colorType): the operator of a color, an RGB one or one with a name *)
Inductive color := Rgb (b : bytes) | Spot (id : Z) (tint : bytes).
Definition color_eqb (a b : color) : bool :=
  match a, b with Rgb x, Rgb y => beqb x y | Spot i x, Spot j y => (i =? j) && beqb x y | _, _ => false end.
Definition ink (c : color) : list item := match c with Rgb b => [Other b] | Spot i b => [Named (Cs i); Other b] end.
(** fpdf.go:109-112 (fpdfNew): black *)
Definition black_g : color := Rgb (bs "0 g").
Definition black_G : color := Rgb (bs "0 G").

(** m[k] = v and lookup of maps *)
Fixpoint put {A} (k : bytes) (v : A) (m : list (bytes * A)) : list (bytes * A) :=
  match m with [] => [(k, v)] | (x, w) :: t => if beqb k x then (k, v) :: t else (x, w) :: put k v t end.
Fixpoint get {A} (k : bytes) (m : list (bytes * A)) : option A :=
  match m with [] => None | (x, w) :: t => if beqb k x then Some w else get k t end.

Fixpoint upd {B} (n : nat) (u : B -> B) (l : list B) : list B :=
  match l, n with [], _ => [] | x :: t, O => u x :: t | x :: t, S n => x :: upd n u t end.

(** an image: the pointer and the identifier *)
Definition img : Set := (nat * bytes)%type.
(** template_impl.go:58-65 (FpdfTpl); [fm]: the map of fonts it was drawn with (the code does not keep it) *)
Inductive tm := Tm (pages : list (list item)) (page : nat) (imgs : list (bytes * img)) (subs : list tm) (fm : nat).
Definition tm_pages (t : tm) := let 'Tm p _ _ _ _ := t in p.
Definition tm_page (t : tm) := let 'Tm _ p _ _ _ := t in p.
Definition tm_imgs (t : tm) := let 'Tm _ _ i _ _ := t in i.
Definition tm_subs (t : tm) := let 'Tm _ _ _ s _ := t in s.
Definition tm_fm (t : tm) := let 'Tm _ _ _ _ f := t in f.
Definition tm_content (t : tm) : list item := nth (tm_page t) (tm_pages t) [].
(** template_impl.go:82-100 [FromPage] *)
Definition on_page (k : nat) (t : tm) : tm := let 'Tm p _ i s f := t in Tm p k i s f.

Record cols := { c_draw : color; c_fill : color; c_text : color; c_flag : bool }.
Record content := { k_pages : list (list item); k_page : nat }.
Record res := { r_imgs : list (bytes * img); r_tpls : list (bytes * tm); r_blends : list bytes; r_grads : Z; r_layers : Z; r_spots : list (bytes * Z) }.
(** [d_key]: family and style of the font, empty if none; [d_cur]: currentFont.i; [d_saved]: what the calls of
    AddPage under way have put aside; [d_own]: made by New *)
Record nd := { d_ct : content; d_res : res; d_cols : cols; d_key : bytes; d_cur : bytes; d_saved : list (bytes * cols);
               d_layer : Z; d_err : bool; d_ended : bool; d_fm : nat; d_own : bool }.
Definition st_ct (c : content) (d : nd) : nd := {| d_ct := c; d_res := d_res d; d_cols := d_cols d; d_key := d_key d; d_cur := d_cur d; d_saved := d_saved d; d_layer := d_layer d; d_err := d_err d; d_ended := d_ended d; d_fm := d_fm d; d_own := d_own d |}.
Definition st_res (r : res) (d : nd) : nd := {| d_ct := d_ct d; d_res := r; d_cols := d_cols d; d_key := d_key d; d_cur := d_cur d; d_saved := d_saved d; d_layer := d_layer d; d_err := d_err d; d_ended := d_ended d; d_fm := d_fm d; d_own := d_own d |}.
Definition st_cols (c : cols) (d : nd) : nd := {| d_ct := d_ct d; d_res := d_res d; d_cols := c; d_key := d_key d; d_cur := d_cur d; d_saved := d_saved d; d_layer := d_layer d; d_err := d_err d; d_ended := d_ended d; d_fm := d_fm d; d_own := d_own d |}.
Definition st_font (k i : bytes) (d : nd) : nd := {| d_ct := d_ct d; d_res := d_res d; d_cols := d_cols d; d_key := k; d_cur := i; d_saved := d_saved d; d_layer := d_layer d; d_err := d_err d; d_ended := d_ended d; d_fm := d_fm d; d_own := d_own d |}.
Definition st_saved (l : list (bytes * cols)) (d : nd) : nd := {| d_ct := d_ct d; d_res := d_res d; d_cols := d_cols d; d_key := d_key d; d_cur := d_cur d; d_saved := l; d_layer := d_layer d; d_err := d_err d; d_ended := d_ended d; d_fm := d_fm d; d_own := d_own d |}.
Definition st_layer (i : Z) (d : nd) : nd := {| d_ct := d_ct d; d_res := d_res d; d_cols := d_cols d; d_key := d_key d; d_cur := d_cur d; d_saved := d_saved d; d_layer := i; d_err := d_err d; d_ended := d_ended d; d_fm := d_fm d; d_own := d_own d |}.
Definition st_err (d : nd) : nd := {| d_ct := d_ct d; d_res := d_res d; d_cols := d_cols d; d_key := d_key d; d_cur := d_cur d; d_saved := d_saved d; d_layer := d_layer d; d_err := true; d_ended := d_ended d; d_fm := d_fm d; d_own := d_own d |}.
Definition st_ended (d : nd) : nd := {| d_ct := d_ct d; d_res := d_res d; d_cols := d_cols d; d_key := d_key d; d_cur := d_cur d; d_saved := d_saved d; d_layer := d_layer d; d_err := d_err d; d_ended := true; d_fm := d_fm d; d_own := d_own d |}.

(** fpdf.go:3756-3764 [out]: to the current page *)
Definition emit (l : list item) (d : nd) : nd :=
  if Nat.eqb (k_page (d_ct d)) 0 then d
  else st_ct {| k_pages := upd (k_page (d_ct d)) (fun c => c ++ l) (k_pages (d_ct d)); k_page := k_page (d_ct d) |} d.

Definition fonts : Set := list (bytes * bytes).
(** fpdf.go:2031-2108 [SetFont]: [key] is the font asked for, [core] the core font it stands for if there is no such
    font: its key and identifier *)
Definition set_font (key : bytes) (core : option (bytes * bytes)) (x : fonts * nd) : fonts * nd :=
  let (m, d) := x in
  if d_err d then x
  else match get key m, core with
       | Some id, _ => (m, emit [Named (Fn id)] (st_font key id d))
       | None, Some (ck, cid) =>
           match get ck m with
           | Some id => (m, emit [Named (Fn id)] (st_font ck id d))
           | None => (put ck cid m, emit [Named (Fn cid)] (st_font ck cid d))
           end
       | None, None => (m, st_err d)
       end.
(** fpdf.go:728-743 (AddPageFormat): what is put aside before the footer *)
Definition save (d : nd) : nd := if d_err d then d else st_saved ((d_key d, d_cols d) :: d_saved d) d.
(** fpdf.go:725-727, 758-788 (AddPageFormat): the new page, before the header *)
Definition start (x : fonts * nd) : fonts * nd :=
  let (m, d) := x in
  if d_err d then x
  else match d_saved d with
       | [] => x
       | (key, c) :: _ =>
           let d := st_font [] (d_cur d) (st_ct {| k_pages := k_pages (d_ct d) ++ [[]]; k_page := length (k_pages (d_ct d)) |} d) in
           let d := emit [Other (bs "J j w")] d in
           let (m, d) := match key with [] => (m, d) | _ => set_font key None (m, d) end in
           if d_err d then (m, d)
           else
             let d := if color_eqb (c_draw c) black_G then d else emit (ink (c_draw c)) d in
             let d := if color_eqb (c_fill c) black_g then d else emit (ink (c_fill c)) d in
             (m, st_cols c d)
       end.
(** fpdf.go:798-821 (AddPageFormat): after the header *)
Definition restore (x : fonts * nd) : fonts * nd :=
  let (m, d) := x in
  match d_saved d with
  | [] => x
  | (key, c) :: rest =>
      let d := st_saved rest d in
      let (m, d) := match key with [] => (m, d) | _ => set_font key None (m, d) end in
      if d_err d then (m, d)
      else
        let d := if color_eqb (c_draw (d_cols d)) (c_draw c) then d else emit (ink (c_draw c)) d in
        let d := if color_eqb (c_fill (d_cols d)) (c_fill c) then d else emit (ink (c_fill c)) d in
        (m, st_cols c d)
  end.

(** The calls on a document.  AddPage is Save, the calls of the footer, Start, the calls of the header, Restore. *)
Inductive act :=
  | Save | Start | Restore | SetPage (n : nat) | Write (b : bytes) | Print (b : bytes)
  | AddFont (key id : bytes) | SetFont (key : bytes) (core : option (bytes * bytes)) | SetFontSize
  | SetAlpha (key : bytes) | Gradient | AddLayer | BeginLayer (i : Z) | EndLayer
  | AddSpot (s : bytes) | SetDrawSpot (s tint : bytes) | SetFillSpot (s tint : bytes) | SetTextSpot (s tint : bytes)
  | SetDraw (b : bytes) | SetFill (b : bytes) | SetText (b : bytes)
  | Image (s id : bytes) | UseTpl (t : nat) (page : nat).
Section Heap.
  (** the identifier of a template: the hash of its content (template_impl.go:67-69 [ID]) *)
  Variable tid : list item -> bytes.
  (** template.go:101 (UseTemplateScaled): the name under which an image of a template is added *)
  Definition tname (id nm : bytes) : bytes := bs "t" ++ id ++ bs "-" ++ nm.
  (** template.go:69-112 [UseTemplateScaled] *)
  Definition use (t : tm) (d : nd) : nd :=
    if Nat.eqb (k_page (d_ct d)) 0 then st_err d
    else
      let r := d_res d in
      let id := tid (tm_content t) in
      let tpls := fold_left (fun m s => put (tid (tm_content s)) s m) (tm_subs t) (put id t (r_tpls r)) in
      let imgs := fold_left (fun m e => if existsb (fun x => beqb (snd (snd x)) (snd (snd e))) (r_imgs r) then m else put (tname id (fst e)) (snd e) m) (tm_imgs t) (r_imgs r) in
      emit [Other (bs "cm"); Named (Tp id)] (st_res {| r_imgs := imgs; r_tpls := tpls; r_blends := r_blends r; r_grads := r_grads r; r_layers := r_layers r; r_spots := r_spots r |} d).
  (** layer.go:65-70 [EndLayer] *)
  Definition end_layer (d : nd) : nd := if 0 <=? d_layer d then st_layer (-1) (emit [Other (bs "EMC")] d) else d.
  Fixpoint index_of (k : bytes) (l : list bytes) (i : Z) : option Z :=
    match l with [] => None | x :: t => if beqb k x then Some i else index_of k t (i + 1) end.
  (** one call: [tms] are the templates there are, [p] is the next pointer *)
  Definition act_step (tms : list tm) (p : nat) (a : act) (x : fonts * nd) : fonts * nd :=
    let (m, d) := x in
    let r := d_res d in
    let c := d_cols d in
    match a with
    | Save => (m, save d)
    | Start => start x
    | Restore => restore x
    | SetPage n =>                       (* fpdf.go:400-404 [SetPage] *)
        (m, if (0 <? n)%nat && (n <? length (k_pages (d_ct d)))%nat then st_ct {| k_pages := k_pages (d_ct d); k_page := n |} d else d)
    | Write b => (m, emit [Other b] d)
    | Print b =>                         (* fpdf.go:2208-2233 [Text], fpdf.go:2418-2420, 2473-2475 (CellFormat) *)
        (m, emit ((if c_flag c then ink (c_text c) else []) ++ [Other b]) d)
    | AddFont key id =>                  (* fpdf.go:1947-1990 [AddFontFromReader], fpdf.go:1816-1932 [addFontFromBytes], fpdf.go:1671-1768 [addFont]: only a new key *)
        if d_err d then x else match get key m with Some _ => x | None => (put key id m, d) end
    | SetFont key core => set_font key core x
    | SetFontSize => (m, emit [Named (Fn (d_cur d))] d)     (* fpdf.go:2117-2123 [SetFontSize], fpdf.go:2127-2133 [SetFontUnitSize] *)
    | SetAlpha key =>                    (* fpdf.go:1344-1375 [SetAlpha], with a value in range and a known mode *)
        (m, if d_err d then d else
            match index_of key (r_blends r) 1 with
            | Some i => emit [Named (Gs i)] d
            | None => emit [Named (Gs (Z.of_nat (length (r_blends r)) + 1))]
                        (st_res {| r_imgs := r_imgs r; r_tpls := r_tpls r; r_blends := r_blends r ++ [key]; r_grads := r_grads r; r_layers := r_layers r; r_spots := r_spots r |} d)
            end)
    | Gradient =>                        (* fpdf.go:1389-1396 [gradient] *)
        (m, emit [Named (Sh (r_grads r + 1))] (st_res {| r_imgs := r_imgs r; r_tpls := r_tpls r; r_blends := r_blends r; r_grads := r_grads r + 1; r_layers := r_layers r; r_spots := r_spots r |} d))
    | AddLayer =>                        (* layer.go:45-49 [AddLayer] *)
        (m, st_res {| r_imgs := r_imgs r; r_tpls := r_tpls r; r_blends := r_blends r; r_grads := r_grads r; r_layers := r_layers r + 1; r_spots := r_spots r |} d)
    | BeginLayer i =>                    (* layer.go:55-61 [BeginLayer] *)
        let d := end_layer d in
        (m, if (0 <=? i) && (i <? r_layers r) then st_layer i (emit [Named (Oc i)] d) else d)
    | EndLayer => (m, end_layer d)
    | AddSpot s =>                       (* spotcolor.go:36-54 [AddSpotColor] *)
        (m, if d_err d then d else
            match get s (r_spots r) with
            | Some _ => st_err d
            | None => st_res {| r_imgs := r_imgs r; r_tpls := r_tpls r; r_blends := r_blends r; r_grads := r_grads r; r_layers := r_layers r; r_spots := put s (Z.of_nat (length (r_spots r)) + 1) (r_spots r) |} d
            end)
    | SetDrawSpot s tint =>              (* spotcolor.go:70-83 [SetDrawSpotColor] *)
        (m, if d_err d then d else
            match get s (r_spots r) with
            | Some i => emit (ink (Spot i tint)) (st_cols {| c_draw := Spot i tint; c_fill := c_fill c; c_text := c_text c; c_flag := c_flag c |} d)
            | None => st_err d
            end)
    | SetFillSpot s tint =>              (* spotcolor.go:89-103 [SetFillSpotColor] *)
        (m, if d_err d then d else
            match get s (r_spots r) with
            | Some i => emit (ink (Spot i tint)) (st_cols {| c_draw := c_draw c; c_fill := Spot i tint; c_text := c_text c; c_flag := negb (color_eqb (Spot i tint) (c_text c)) |} d)
            | None => st_err d
            end)
    | SetTextSpot s tint =>              (* spotcolor.go:109-120 [SetTextSpotColor]: the flag is always off *)
        (m, if d_err d then d else
            match get s (r_spots r) with
            | Some i => st_cols {| c_draw := c_draw c; c_fill := c_fill c; c_text := Spot i tint; c_flag := false |} d
            | None => st_err d
            end)
    | SetDraw b =>                       (* fpdf.go:889-894 [setDrawColor] *)
        (m, emit [Other b] (st_cols {| c_draw := Rgb b; c_fill := c_fill c; c_text := c_text c; c_flag := c_flag c |} d))
    | SetFill b =>                       (* fpdf.go:911-917 [setFillColor] *)
        (m, emit [Other b] (st_cols {| c_draw := c_draw c; c_fill := Rgb b; c_text := c_text c; c_flag := negb (color_eqb (Rgb b) (c_text c)) |} d))
    | SetText b =>                       (* fpdf.go:933-936 [setTextColor] *)
        (m, st_cols {| c_draw := c_draw c; c_fill := c_fill c; c_text := Rgb b; c_flag := negb (color_eqb (c_fill c) (Rgb b)) |} d)
    | Image s id =>                      (* fpdf.go:3112-3122 [ImageOptions], fpdf.go:3163-3202 [RegisterImageOptionsReader], fpdf.go:3008-3062 [imageOut] *)
        (m, if d_err d then d else
            match get s (r_imgs r) with
            | Some (_, i) => emit [Named (Im i)] d
            | None => emit [Named (Im id)] (st_res {| r_imgs := put s (p, id) (r_imgs r); r_tpls := r_tpls r; r_blends := r_blends r; r_grads := r_grads r; r_layers := r_layers r; r_spots := r_spots r |} d)
            end)
    | UseTpl j k =>                      (* template.go:58-65 [UseTemplate], of a page of the template *)
        (m, match nth_error tms j with
            | Some t => if (0 <? k)%nat && (k <? length (tm_pages t))%nat then use (on_page k t) d else d
            | None => st_err d
            end)
    end.

  (** ** Documents and templates *)
  Record heap := { h_docs : list nd; h_fonts : list fonts; h_tms : list tm; h_ptr : nat }.
  Definition empty : heap := {| h_docs := []; h_fonts := []; h_tms := []; h_ptr := 0 |}.
  (** fpdf.go:60-212 [fpdfNew]: no page, no resources *)
  Definition fresh (c : cols) (key cur : bytes) (imgs : list (bytes * img)) (fm : nat) (own : bool) : nd :=
    {| d_ct := {| k_pages := [[]]; k_page := 0 |}; d_res := {| r_imgs := imgs; r_tpls := []; r_blends := []; r_grads := 0; r_layers := 0; r_spots := [] |};
       d_cols := c; d_key := key; d_cur := cur; d_saved := []; d_layer := -1; d_err := false; d_ended := false; d_fm := fm; d_own := own |}.
  Definition cols0 : cols := {| c_draw := black_G; c_fill := black_g; c_text := black_g; c_flag := false |}.
  (** [New]; [Begin d]: CreateTemplate on document d, up to the call of the drawing function; [BeginFree]: CreateTpl;
      [Do d a]: a call on document d; [Finish d]: the drawing function has returned.  Nothing is drawn on the
      document of a template after that. *)
  Inductive cmd := New | Begin (d : nat) | BeginFree | Do (d : nat) (a : act) | Finish (d : nat).
  Definition add_page (x : fonts * nd) : fonts * nd := restore (start (fst x, save (snd x))).
  Definition step (c : cmd) (h : heap) : heap :=
    match c with
    | New => {| h_docs := h_docs h ++ [fresh cols0 [] [] [] (length (h_fonts h)) true]; h_fonts := h_fonts h ++ [[]]; h_tms := h_tms h; h_ptr := h_ptr h |}
    | Begin i =>                         (* template.go:25-33 [CreateTemplate], template_impl.go:29-38 (newTpl), template_impl.go:278-303 [loadParamsFromFpdf] *)
        match nth_error (h_docs h) i with
        | Some f =>
            match nth_error (h_fonts h) (d_fm f) with
            | Some m =>
                let c := {| c_draw := c_draw (d_cols f); c_fill := c_fill (d_cols f); c_text := c_text (d_cols f); c_flag := false |} in
                let (m', t) := add_page (m, fresh c (d_key f) (d_cur f) (r_imgs (d_res f)) (d_fm f) false) in
                {| h_docs := h_docs h ++ [t]; h_fonts := upd (d_fm f) (fun _ => m') (h_fonts h); h_tms := h_tms h; h_ptr := h_ptr h |}
            | None => h
            end
        | None => h
        end
    | BeginFree =>                       (* template.go:52-54 [CreateTpl], template_impl.go:29-38 (newTpl) *)
        let (m', t) := add_page ([], fresh cols0 [] [] [] (length (h_fonts h)) false) in
        {| h_docs := h_docs h ++ [t]; h_fonts := h_fonts h ++ [m']; h_tms := h_tms h; h_ptr := h_ptr h |}
    | Do i a =>
        match nth_error (h_docs h) i with
        | Some d =>
            match nth_error (h_fonts h) (d_fm d) with
            | Some m =>
                if d_ended d then h
                else let (m', d') := act_step (h_tms h) (h_ptr h) a (m, d) in
                     {| h_docs := upd i (fun _ => d') (h_docs h); h_fonts := upd (d_fm d) (fun _ => m') (h_fonts h); h_tms := h_tms h; h_ptr := S (h_ptr h) |}
            | None => h
            end
        | None => h
        end
    | Finish i =>                        (* template_impl.go:39-53 (newTpl) *)
        match nth_error (h_docs h) i with
        | Some d =>
            if d_ended d || d_own d then h
            else {| h_docs := upd i st_ended (h_docs h); h_fonts := h_fonts h;
                    h_tms := h_tms h ++ [Tm (k_pages (d_ct d)) (k_page (d_ct d)) (r_imgs (d_res d)) (map snd (r_tpls (d_res d))) (d_fm d)]; h_ptr := h_ptr h |}
        | None => h
        end
    end.
  Definition run (l : list cmd) (h : heap) : heap := fold_left (fun h c => step c h) l h.

  (** ** The resource dictionaries *)
  (** fpdf.go:4479-4520 [putresourcedict], fpdf.go:4441-4477 [putxobjectdict]: the names of the dictionary of a document *)
  Definition doc_names (m : fonts) (r : res) : list name :=
    map (fun e => Fn (snd e)) m ++ map (fun e => Im (snd (snd e))) (r_imgs r) ++ map (fun e => Tp (tid (tm_content (snd e)))) (r_tpls r)
    ++ map (fun i => Gs (Z.of_nat i)) (seq 1 (length (r_blends r))) ++ map (fun i => Sh (Z.of_nat i)) (seq 1 (Z.to_nat (r_grads r)))
    ++ map (fun i => Oc (Z.of_nat i)) (seq 0 (Z.to_nat (r_layers r))) ++ map (fun e => Cs (snd e)) (r_spots r).
  (** template.go:170-203 (putTemplates): the names of the dictionary of a template, with the image an /I name stands for.
      Templates that are written have an object, so the test of templateObjects is left out (see C37 and C51). *)
  Definition tpl_names (m : fonts) (t : tm) : list (name * option nat) :=
    map (fun e => (Fn (snd e), None)) m ++ map (fun e => (Im (snd (snd e)), Some (fst (snd e)))) (tm_imgs t)
    ++ map (fun s => (Tp (tid (tm_content s)), None)) (tm_subs t).
End Heap.
