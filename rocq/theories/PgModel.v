(** Page sizes, orientations and page boxes: fpdf.go:60-212 [fpdfNew], 298-300, 355-405, 505-509, 701-847, 3478-3556 and the lines of
    putpages (fpdf.go:3887-3905) that say how large a page is.

    Only the fields of the document that these functions use are modelled.  Numbers are abstract; the constants of the source are given
    as quotients of integers.  Text is ASCII where the code changes its case ([low1], [up1]; Go also maps a few other characters).
    What header and footer functions do appears as further calls between those of the history; the font, color and line settings
    of AddPageFormat are in ApiModel.v. *)
From Verif Require Import Base Crypto DocModel.
From Coq Require Import String.
Open Scope Z_scope.
Notation length := List.length.

Record pnum := {
  N :> Type;
  n_lit : Z -> Z -> N;          (* a constant of the source, n_lit a b = a / b *)
  n_mul : N -> N -> N; n_div : N -> N -> N; n_add : N -> N -> N; n_sub : N -> N -> N;
  n_pos : N -> bool;            (* > 0 *)
  n_gt : N -> N -> bool;
  n_eqb : N -> N -> bool }.

Section Pages.
  Variable P : pnum.
  Notation num := (N P).
  (** def.go [SizeType], [PageBox] *)
  Record size := { wd : num; ht : num }.
  Record box := { bx : num; by_ : num; bw : num; bh : num }.
  (** def.go:475-570, the fields used here.  [p_boxes], [p_sizes]: by page number *)
  Record pst := {
    p_err : option bytes;
    p_k : num; p_unit : bytes;
    p_std : list (bytes * size);                       (* stdPageSizes *)
    p_def : size; p_cur : size;                        (* defPageSize, curPageSize *)
    p_dor : bytes; p_cor : bytes;                      (* defOrientation, curOrientation *)
    p_w : num; p_h : num; p_wpt : num; p_hpt : num;
    p_bm : num; p_trig : num;                          (* bMargin, pageBreakTrigger *)
    p_page : Z; p_n : Z;                               (* page, len(pages) - 1 *)
    p_sizes : Z -> option size; p_boxes : Z -> bytes -> option box; p_defboxes : bytes -> option box;
    p_fs : num }.                                      (* fontSize *)

  Definition low1 (c : Z) : Z := if (65 <=? c) && (c <=? 90) then Z.add c 32 else c.
  Definition lower (b : bytes) : bytes := map low1 b.
  (** strings.ToUpper of one byte; a byte that is no character becomes U+FFFD *)
  Definition up1 (c : Z) : bytes := if (97 <=? c) && (c <=? 122) then [Z.sub c 32] else if c <? 128 then [c] else [239; 191; 189].
  Definition or_else (s : bytes) (t : string) : bytes := match s with [] => bs t | _ => s end.
  Definition is (s : bytes) (l : list string) : bool := existsb (fun t => beqb s (bs t)) l.

  (** fpdf.go:127-136 *)
  Definition std_sizes : list (bytes * size) :=
    let e (n : string) (a b : Z) := (bs n, {| wd := n_lit P a 100; ht := n_lit P b 100 |}) in
    [e "a3"%string 84189 119055; e "a4"%string 59528 84189; e "a5"%string 42094 59528; e "a6"%string 29764 42094; e "a2"%string 119055 168378; e "a1"%string 168378 238394;
     e "letter"%string 61200 79200; e "legal"%string 61200 100800; e "tabloid"%string 79200 122400].
  Fixpoint find_size (n : bytes) (l : list (bytes * size)) : option size :=
    match l with [] => None | (x, s) :: t => if beqb n x then Some s else find_size n t end.
  (** fpdf.go:111-124: the points in a unit *)
  Definition unit_points (u : bytes) : option num :=
    if is u ["pt"; "point"]%string then Some (n_lit P 1 1)
    else if is u ["mm"]%string then Some (n_div P (n_lit P 72 1) (n_lit P 254 10))
    else if is u ["cm"]%string then Some (n_div P (n_lit P 72 1) (n_lit P 254 100))
    else if is u ["in"; "inch"]%string then Some (n_lit P 72 1)
    else None.

  (** a new struct: fpdf.go:61 and 78-100.  Everything is zero, but for the current font size, which is the 12 points of line 99
      divided by the scale, and the scale is not set yet *)
  Definition zero : num := n_lit P 0 1.
  Definition blank : pst := {|
    p_err := None; p_k := zero; p_unit := []; p_std := []; p_def := {| wd := zero; ht := zero |}; p_cur := {| wd := zero; ht := zero |}; p_dor := []; p_cor := [];
    p_w := zero; p_h := zero; p_wpt := zero; p_hpt := zero; p_bm := zero; p_trig := zero; p_page := 0; p_n := 0;
    p_sizes := fun _ => None; p_boxes := fun _ _ => None; p_defboxes := fun _ => None; p_fs := n_div P (n_lit P 12 1) zero |}.
  Definition set_err (e : bytes) (s : pst) : pst := {|
    p_err := Some e; p_k := p_k s; p_unit := p_unit s; p_std := p_std s; p_def := p_def s; p_cur := p_cur s; p_dor := p_dor s; p_cor := p_cor s;
    p_w := p_w s; p_h := p_h s; p_wpt := p_wpt s; p_hpt := p_hpt s; p_bm := p_bm s; p_trig := p_trig s; p_page := p_page s; p_n := p_n s;
    p_sizes := p_sizes s; p_boxes := p_boxes s; p_defboxes := p_defboxes s; p_fs := p_fs s |}.
  Definition set_unit (k : num) (u : bytes) (s : pst) : pst := {|
    p_err := p_err s; p_k := k; p_unit := u; p_std := std_sizes; p_def := p_def s; p_cur := p_cur s; p_dor := p_dor s; p_cor := p_cor s;
    p_w := p_w s; p_h := p_h s; p_wpt := p_wpt s; p_hpt := p_hpt s; p_bm := p_bm s; p_trig := p_trig s; p_page := p_page s; p_n := p_n s;
    p_sizes := p_sizes s; p_boxes := p_boxes s; p_defboxes := p_defboxes s; p_fs := p_fs s |}.
  (** fpdf.go:3478-3495 [getpagesizestr] *)
  Definition get_page_size_str (n : bytes) (s : pst) : size * pst :=
    match p_err s with
    | Some _ => ({| wd := zero; ht := zero |}, s)
    | None =>
        match find_size (lower n) (p_std s) with
        | Some z => ({| wd := n_div P (wd z) (p_k s); ht := n_div P (ht z) (p_k s) |}, s)
        | None => ({| wd := zero; ht := zero |}, set_err (bs "unknown page size " ++ lower n) s)
        end
    end.
  (** fpdf.go:145-172 and 175: size, orientation, bottom margin *)
  Definition set_sizes (d : size) (o : bytes) (w h bm : num) (s : pst) : pst := {|
    p_err := p_err s; p_k := p_k s; p_unit := p_unit s; p_std := p_std s; p_def := d; p_cur := d; p_dor := o; p_cor := o;
    p_w := w; p_h := h; p_wpt := n_mul P w (p_k s); p_hpt := n_mul P h (p_k s); p_bm := bm; p_trig := n_sub P h bm; p_page := p_page s; p_n := p_n s;
    p_sizes := p_sizes s; p_boxes := p_boxes s; p_defboxes := p_defboxes s; p_fs := p_fs s |}.
  (** fpdf.go:60-212 [fpdfNew] with 221-223 [NewCustom] and 242-244 [New], which differ in the arguments only *)
  Definition new_doc (orient unit_ sizeStr : bytes) (sz : size) : pst :=
    let orient := match orient with [] => bs "p" | _ => lower orient end in
    let unit_ := or_else unit_ "mm" in
    let sizeStr := or_else sizeStr "A4" in
    match unit_points unit_ with
    | None => set_err (bs "incorrect unit " ++ unit_) blank
    | Some k =>
        let s := set_unit k unit_ blank in
        let '(d, s) := if n_pos P (wd sz) && n_pos P (ht sz) then (sz, s) else get_page_size_str sizeStr s in
        match p_err s with
        | Some _ => s
        | None =>
            let bm := n_mul P (n_lit P 2 1) (n_div P (n_lit P 2835 100) k) in
            if is orient ["p"; "portrait"]%string then set_sizes d (bs "P") (wd d) (ht d) bm s
            else if is orient ["l"; "landscape"]%string then set_sizes d (bs "L") (ht d) (wd d) bm s
            else set_err (bs "incorrect orientation: " ++ orient) s
        end
    end.

  (** fpdf.go:3509-3551 [beginpage] *)
  Definition begin_page (o : bytes) (sz : size) (s : pst) : pst :=
    match p_err s with
    | Some _ => s
    | None =>
        let page := Z.add (p_page s) 1 in
        let o := match o with [] => p_dor s | c :: _ => up1 c end in
        let same (a b : size) := n_eqb P (wd a) (wd b) && n_eqb P (ht a) (ht b) in
        let changed := negb (beqb o (p_cor s)) || negb (same sz (p_cur s)) in
        let w := if changed then (if beqb o (bs "P") then wd sz else ht sz) else p_w s in
        let h := if changed then (if beqb o (bs "P") then ht sz else wd sz) else p_h s in
        let wpt := if changed then n_mul P w (p_k s) else p_wpt s in
        let hpt := if changed then n_mul P h (p_k s) else p_hpt s in
        {| p_err := None; p_k := p_k s; p_unit := p_unit s; p_std := p_std s; p_def := p_def s; p_cur := if changed then sz else p_cur s;
           p_dor := p_dor s; p_cor := if changed then o else p_cor s; p_w := w; p_h := h; p_wpt := wpt; p_hpt := hpt; p_bm := p_bm s;
           p_trig := if changed then n_sub P h (p_bm s) else p_trig s; p_page := page; p_n := Z.add (p_n s) 1;
           p_sizes := if negb (beqb o (p_dor s)) || negb (same sz (p_def s)) then (fun q => if q =? page then Some {| wd := wpt; ht := hpt |} else p_sizes s q) else p_sizes s;
           p_boxes := (fun q => if q =? page then p_defboxes s else p_boxes s q); p_defboxes := p_defboxes s; p_fs := p_fs s |}
    end.
  Definition at_page (q : Z) (s : pst) : pst := {|
    p_err := p_err s; p_k := p_k s; p_unit := p_unit s; p_std := p_std s; p_def := p_def s; p_cur := p_cur s; p_dor := p_dor s; p_cor := p_cor s;
    p_w := p_w s; p_h := p_h s; p_wpt := p_wpt s; p_hpt := p_hpt s; p_bm := p_bm s; p_trig := p_trig s; p_page := q; p_n := p_n s;
    p_sizes := p_sizes s; p_boxes := p_boxes s; p_defboxes := p_defboxes s; p_fs := p_fs s |}.
  (** fpdf.go:719-822 [AddPageFormat]; only the page counter and beginpage *)
  Definition add_page_format (o : bytes) (sz : size) (s : pst) : pst :=
    match p_err s with Some _ => s | None => begin_page o sz (at_page (p_n s) s) end.
  (** fpdf.go:838-845 [AddPage] *)
  Definition add_page (s : pst) : pst := match p_err s with Some _ => s | None => add_page_format (p_dor s) (p_def s) s end.
  (** fpdf.go:2335, 3042 (CellFormat, imageOut): an automatic page break *)
  Definition break_page (s : pst) : pst := add_page_format (p_cor s) (p_cur s) s.
  (** fpdf.go:400-404 [SetPage] *)
  Definition set_page (q : Z) (s : pst) : pst := if (0 <? q) && (q <? Z.add (p_n s) 1) then at_page q s else s.
  (** fpdf.go:505-509 [SetAutoPageBreak] *)
  Definition set_auto_page_break (m : num) (s : pst) : pst := {|
    p_err := p_err s; p_k := p_k s; p_unit := p_unit s; p_std := p_std s; p_def := p_def s; p_cur := p_cur s; p_dor := p_dor s; p_cor := p_cor s;
    p_w := p_w s; p_h := p_h s; p_wpt := p_wpt s; p_hpt := p_hpt s; p_bm := m; p_trig := n_sub P (p_h s) m; p_page := p_page s; p_n := p_n s;
    p_sizes := p_sizes s; p_boxes := p_boxes s; p_defboxes := p_defboxes s; p_fs := p_fs s |}.
  (** fpdf.go:355-389 [SetPageBoxRec], called by 394-396 [SetPageBox] *)
  Definition box_key (t : bytes) : option bytes :=
    let t := lower t in
    if is t ["trim"; "trimbox"]%string then Some (bs "TrimBox") else if is t ["crop"; "cropbox"]%string then Some (bs "CropBox")
    else if is t ["bleed"; "bleedbox"]%string then Some (bs "BleedBox") else if is t ["art"; "artbox"]%string then Some (bs "ArtBox") else None.
  Definition set_page_box (t : bytes) (b : box) (s : pst) : pst :=
    match box_key t with
    | None => set_err (t ++ bs " is not a valid page box type") s
    | Some t =>
        let x := n_mul P (bx b) (p_k s) in let y := n_mul P (by_ b) (p_k s) in
        let b := {| bx := x; by_ := y; bw := n_add P (n_mul P (bw b) (p_k s)) x; bh := n_add P (n_mul P (bh b) (p_k s)) y |} in
        let put (m : bytes -> option box) t' := if beqb t' t then Some b else m t' in
        {| p_err := p_err s; p_k := p_k s; p_unit := p_unit s; p_std := p_std s; p_def := p_def s; p_cur := p_cur s; p_dor := p_dor s; p_cor := p_cor s;
           p_w := p_w s; p_h := p_h s; p_wpt := p_wpt s; p_hpt := p_hpt s; p_bm := p_bm s; p_trig := p_trig s; p_page := p_page s; p_n := p_n s;
           p_sizes := p_sizes s; p_boxes := (fun q => if (0 <? p_page s) && (q =? p_page s) then put (p_boxes s q) else p_boxes s q); p_defboxes := put (p_defboxes s); p_fs := p_fs s |}
    end.
  (** fpdf.go:284-288 [SetError] and 260-262 [ClearError] *)
  Definition set_error (e : bytes) (s : pst) : pst := match p_err s with Some _ => s | None => set_err e s end.
  Definition clear_error (s : pst) : pst := {|
    p_err := None; p_k := p_k s; p_unit := p_unit s; p_std := p_std s; p_def := p_def s; p_cur := p_cur s; p_dor := p_dor s; p_cor := p_cor s;
    p_w := p_w s; p_h := p_h s; p_wpt := p_wpt s; p_hpt := p_hpt s; p_bm := p_bm s; p_trig := p_trig s; p_page := p_page s; p_n := p_n s;
    p_sizes := p_sizes s; p_boxes := p_boxes s; p_defboxes := p_defboxes s; p_fs := p_fs s |}.

  (** ** What a caller sees *)
  (** fpdf.go:298-302 [GetPageSize] *)
  Definition get_page_size (s : pst) : num * num := (p_w s, p_h s).
  (** fpdf.go:701-709 [PageSize] *)
  Definition page_size (q : Z) (s : pst) : num * num * bytes :=
    match p_sizes s q with
    | Some z => (n_div P (wd z) (p_k s), n_div P (ht z) (p_k s), p_unit s)
    | None => (wd (p_def s), ht (p_def s), p_unit s)
    end.
  (** fpdf.go:3887-3893: the page size of the page tree, in points; a page without its own size inherits it (3901-3904) *)
  Definition default_media (s : pst) : size :=
    if beqb (p_dor s) (bs "P") then {| wd := n_mul P (wd (p_def s)) (p_k s); ht := n_mul P (ht (p_def s)) (p_k s) |}
    else {| wd := n_mul P (ht (p_def s)) (p_k s); ht := n_mul P (wd (p_def s)) (p_k s) |}.
  Definition media (q : Z) (s : pst) : size := match p_sizes s q with Some z => z | None => default_media s end.

  (** calls made on a document; not in the code *)
  Inductive pcall := AddPage | AddPageFormat (o : bytes) (sz : size) | BreakPage | SetPage (q : Z) | AutoBreak (m : num)
    | SetPageBox (t : bytes) (b : box) | SetError (e : bytes) | ClearError.
  Definition pstep (s : pst) (c : pcall) : pst :=
    match c with
    | AddPage => add_page s | AddPageFormat o sz => add_page_format o sz s | BreakPage => break_page s | SetPage q => set_page q s
    | AutoBreak m => set_auto_page_break m s | SetPageBox t b => set_page_box t b s | SetError e => set_error e s | ClearError => clear_error s
    end.
  Definition prun (cs : list pcall) (s : pst) : pst := fold_left pstep cs s.

  (** util.go:297-305 [Orientation]; the nil case is not modelled *)
  Definition orientation (z : size) : bytes := if n_eqb P (ht z) (wd z) then [] else if n_gt P (wd z) (ht z) then bs "L" else bs "P".
  (** util.go:308-310 [ScaleBy], util.go:313-316 [ScaleToWidth], util.go:319-322 [ScaleToHeight] *)
  Definition scale_by (f : num) (z : size) : size := {| wd := n_mul P (wd z) f; ht := n_mul P (ht z) f |}.
  Definition scale_to_width (w : num) (z : size) : size := {| wd := w; ht := n_div P (n_mul P (ht z) w) (wd z) |}.
  Definition scale_to_height (h : num) (z : size) : size := {| wd := n_div P (n_mul P (wd z) h) (ht z); ht := h |}.
End Pages.
Arguments wd {P}. Arguments ht {P}. Arguments Build_size {P}. Arguments bx {P}. Arguments by_ {P}. Arguments bw {P}. Arguments bh {P}. Arguments Build_box {P}.
Arguments p_err {P}. Arguments p_k {P}. Arguments p_unit {P}. Arguments p_std {P}. Arguments p_def {P}. Arguments p_cur {P}. Arguments p_dor {P}. Arguments p_cor {P}.
Arguments p_w {P}. Arguments p_h {P}. Arguments p_wpt {P}. Arguments p_hpt {P}. Arguments p_bm {P}. Arguments p_trig {P}. Arguments p_page {P}. Arguments p_n {P}.
Arguments p_sizes {P}. Arguments p_boxes {P}. Arguments p_defboxes {P}. Arguments p_fs {P}.
Arguments set_err {P}. Arguments begin_page {P}. Arguments at_page {P}. Arguments add_page_format {P}. Arguments add_page {P}. Arguments break_page {P}. Arguments set_page {P}.
Arguments set_page_box {P}. Arguments set_error {P}. Arguments clear_error {P}. Arguments get_page_size {P}. Arguments page_size {P}. Arguments default_media {P}. Arguments media {P}.
Arguments prun {P}. Arguments pstep {P}. Arguments orientation {P}. Arguments scale_by {P}. Arguments scale_to_width {P}. Arguments scale_to_height {P}.
Arguments new_doc {P}. Arguments find_size {P}. Arguments get_page_size_str {P}. Arguments set_sizes {P}. Arguments set_unit {P}.
