From Coq Require Import String ZArith List Bool Lia.
From Verif Require Import Base.
Import ListNotations.
Open Scope Z_scope.

(** The drawing parameters a caller sets and reads back.  Numbers are those of any type with the operations below (float64 in the code).
    Pages have the size given to New and there is no header or footer (C82 has other sizes, C23 headers and footers); what the calls write
    into the page is in ApiModel.v. *)
Record gnum := { N :> Type; g_neg : N -> bool; g_lt : N -> N -> bool; g_over_one : N -> bool; g_add : N -> N -> N; g_mul : N -> N -> N; g_div : N -> N -> N }.

(** def.go:127-134 [colorType]: only the whole components and the name of the spot color can be read back *)
Record rgb := { c_r : Z; c_g : Z; c_b : Z; c_spot : bytes }.
(** def.go:142-145: percentages *)
Record ink := { i_c : Z; i_m : Z; i_y : Z; i_k : Z }.
Inductive what := Draw | Fill | Text.
Definition what_eqb (a b : what) : bool := match a, b with Draw, Draw | Fill, Fill | Text, Text => true | _, _ => false end.

Section Get.
  Context {T : gnum}.
  Record gstate := {
    q_k : T; q_w : T; q_h : T; q_page : bool; q_err : bool;
    q_lm : T; q_tm : T; q_rm : T; q_bm : T; q_auto : bool; q_cm : T; q_x : T; q_y : T;
    q_color : what -> rgb; q_inks : list (bytes * ink); q_lw : T; q_alpha : T; q_blend : bytes; q_pt : T; q_unit : T }.

  Inductive call :=
  | SetMargins (l t r : T) | SetLeftMargin (m : T) | SetTopMargin (m : T) | SetRightMargin (m : T)
  | SetAutoPageBreak (auto : bool) (m : T) | SetCellMargin (m : T)
  | SetX (x : T) | SetY (y : T) | SetXY (x y : T) | SetHomeXY
  | SetColor (u : what) (r g b : Z) | SetSpotColor (u : what) (name : bytes)
  | AddSpotColor (name : bytes) (c m y k : Z)
  | SetLineWidth (w : T) | SetAlpha (a : T) (mode : bytes)
  | SetFontSize (s : T) | SetFontUnitSize (s : T)
  | AddPage | SetError | ClearError.

  Definition with_margins l t r (s : gstate) : gstate :=
    {| q_k := q_k s; q_w := q_w s; q_h := q_h s; q_page := q_page s; q_err := q_err s; q_lm := l; q_tm := t; q_rm := r; q_bm := q_bm s; q_auto := q_auto s; q_cm := q_cm s; q_x := q_x s; q_y := q_y s; q_color := q_color s; q_inks := q_inks s; q_lw := q_lw s; q_alpha := q_alpha s; q_blend := q_blend s; q_pt := q_pt s; q_unit := q_unit s |}.
  Definition with_xy x y (s : gstate) : gstate :=
    {| q_k := q_k s; q_w := q_w s; q_h := q_h s; q_page := q_page s; q_err := q_err s; q_lm := q_lm s; q_tm := q_tm s; q_rm := q_rm s; q_bm := q_bm s; q_auto := q_auto s; q_cm := q_cm s; q_x := x; q_y := y; q_color := q_color s; q_inks := q_inks s; q_lw := q_lw s; q_alpha := q_alpha s; q_blend := q_blend s; q_pt := q_pt s; q_unit := q_unit s |}.
  Definition with_break a m (s : gstate) : gstate :=
    {| q_k := q_k s; q_w := q_w s; q_h := q_h s; q_page := q_page s; q_err := q_err s; q_lm := q_lm s; q_tm := q_tm s; q_rm := q_rm s; q_bm := m; q_auto := a; q_cm := q_cm s; q_x := q_x s; q_y := q_y s; q_color := q_color s; q_inks := q_inks s; q_lw := q_lw s; q_alpha := q_alpha s; q_blend := q_blend s; q_pt := q_pt s; q_unit := q_unit s |}.
  Definition with_cell m (s : gstate) : gstate :=
    {| q_k := q_k s; q_w := q_w s; q_h := q_h s; q_page := q_page s; q_err := q_err s; q_lm := q_lm s; q_tm := q_tm s; q_rm := q_rm s; q_bm := q_bm s; q_auto := q_auto s; q_cm := m; q_x := q_x s; q_y := q_y s; q_color := q_color s; q_inks := q_inks s; q_lw := q_lw s; q_alpha := q_alpha s; q_blend := q_blend s; q_pt := q_pt s; q_unit := q_unit s |}.
  Definition with_color u c (s : gstate) : gstate :=
    {| q_k := q_k s; q_w := q_w s; q_h := q_h s; q_page := q_page s; q_err := q_err s; q_lm := q_lm s; q_tm := q_tm s; q_rm := q_rm s; q_bm := q_bm s; q_auto := q_auto s; q_cm := q_cm s; q_x := q_x s; q_y := q_y s; q_color := (fun v => if what_eqb v u then c else q_color s v); q_inks := q_inks s; q_lw := q_lw s; q_alpha := q_alpha s; q_blend := q_blend s; q_pt := q_pt s; q_unit := q_unit s |}.
  Definition with_inks l (s : gstate) : gstate :=
    {| q_k := q_k s; q_w := q_w s; q_h := q_h s; q_page := q_page s; q_err := q_err s; q_lm := q_lm s; q_tm := q_tm s; q_rm := q_rm s; q_bm := q_bm s; q_auto := q_auto s; q_cm := q_cm s; q_x := q_x s; q_y := q_y s; q_color := q_color s; q_inks := l; q_lw := q_lw s; q_alpha := q_alpha s; q_blend := q_blend s; q_pt := q_pt s; q_unit := q_unit s |}.
  Definition with_lw w (s : gstate) : gstate :=
    {| q_k := q_k s; q_w := q_w s; q_h := q_h s; q_page := q_page s; q_err := q_err s; q_lm := q_lm s; q_tm := q_tm s; q_rm := q_rm s; q_bm := q_bm s; q_auto := q_auto s; q_cm := q_cm s; q_x := q_x s; q_y := q_y s; q_color := q_color s; q_inks := q_inks s; q_lw := w; q_alpha := q_alpha s; q_blend := q_blend s; q_pt := q_pt s; q_unit := q_unit s |}.
  Definition with_alpha a m (s : gstate) : gstate :=
    {| q_k := q_k s; q_w := q_w s; q_h := q_h s; q_page := q_page s; q_err := q_err s; q_lm := q_lm s; q_tm := q_tm s; q_rm := q_rm s; q_bm := q_bm s; q_auto := q_auto s; q_cm := q_cm s; q_x := q_x s; q_y := q_y s; q_color := q_color s; q_inks := q_inks s; q_lw := q_lw s; q_alpha := a; q_blend := m; q_pt := q_pt s; q_unit := q_unit s |}.
  Definition with_size p u (s : gstate) : gstate :=
    {| q_k := q_k s; q_w := q_w s; q_h := q_h s; q_page := q_page s; q_err := q_err s; q_lm := q_lm s; q_tm := q_tm s; q_rm := q_rm s; q_bm := q_bm s; q_auto := q_auto s; q_cm := q_cm s; q_x := q_x s; q_y := q_y s; q_color := q_color s; q_inks := q_inks s; q_lw := q_lw s; q_alpha := q_alpha s; q_blend := q_blend s; q_pt := p; q_unit := u |}.
  Definition with_page (s : gstate) : gstate :=
    {| q_k := q_k s; q_w := q_w s; q_h := q_h s; q_page := true; q_err := q_err s; q_lm := q_lm s; q_tm := q_tm s; q_rm := q_rm s; q_bm := q_bm s; q_auto := q_auto s; q_cm := q_cm s; q_x := q_x s; q_y := q_y s; q_color := q_color s; q_inks := q_inks s; q_lw := q_lw s; q_alpha := q_alpha s; q_blend := q_blend s; q_pt := q_pt s; q_unit := q_unit s |}.
  Definition with_err e (s : gstate) : gstate :=
    {| q_k := q_k s; q_w := q_w s; q_h := q_h s; q_page := q_page s; q_err := e; q_lm := q_lm s; q_tm := q_tm s; q_rm := q_rm s; q_bm := q_bm s; q_auto := q_auto s; q_cm := q_cm s; q_x := q_x s; q_y := q_y s; q_color := q_color s; q_inks := q_inks s; q_lw := q_lw s; q_alpha := q_alpha s; q_blend := q_blend s; q_pt := q_pt s; q_unit := q_unit s |}.

  (** fpdf.go:854-861 [colorComp], the whole number *)
  Definition color_comp (v : Z) : Z := if v <? 0 then 0 else if 255 <? v then 255 else v.
  (** fpdf.go:863-879 [rgbColorValue]: a new colorType, in which spotStr is empty *)
  Definition rgb_color (r g b : Z) : rgb := {| c_r := color_comp r; c_g := color_comp g; c_b := color_comp b; c_spot := [] |}.
  (** spotcolor.go:24-29 [byteBound] *)
  Definition byte_bound (v : Z) : Z := if 100 <? v then 100 else v.
  Definition find_ink (name : bytes) (l : list (bytes * ink)) : option ink := option_map snd (find (fun e => beqb (fst e) name) l).
  (** fpdf.go:3366-3372 [SetX], 3382-3390 [SetY] *)
  Definition set_x (x : T) (s : gstate) : gstate := with_xy (if g_neg T x then g_add T (q_w s) x else x) (q_y s) s.
  Definition set_y (y : T) (s : gstate) : gstate := with_xy (q_lm s) (if g_neg T y then g_add T (q_h s) y else y) s.
  (** fpdf.go:1349-1359 *)
  Definition modes : list bytes := map bs ["Normal"; "Multiply"; "Screen"; "Overlay"; "Darken"; "Lighten"; "ColorDodge"; "ColorBurn"; "HardLight"; "SoftLight"; "Difference"; "Exclusion"; "Hue"; "Saturation"; "Color"; "Luminosity"; ""]%string.

  Definition step (c : call) (s : gstate) : gstate :=
    match c with
    | SetMargins l t r => with_margins l t (if g_neg T r then l else r) s                       (* fpdf.go:318-325 *)
    | SetLeftMargin m =>                                                                        (* fpdf.go:330-335 *)
        let s := with_margins m (q_tm s) (q_rm s) s in
        if q_page s && g_lt T (q_x s) m then with_xy m (q_y s) s else s
    | SetTopMargin m => with_margins (q_lm s) m (q_rm s) s                                      (* fpdf.go:482-484 *)
    | SetRightMargin m => with_margins (q_lm s) (q_tm s) m s                                    (* fpdf.go:488-490 *)
    | SetAutoPageBreak a m => with_break a m s                                                  (* fpdf.go:503-507 *)
    | SetCellMargin m => with_cell m s                                                          (* fpdf.go:347-349 *)
    | SetX x => set_x x s
    | SetY y => set_y y s
    | SetXY x y => set_x x (set_y y s)                                                          (* fpdf.go:3402-3405 *)
    | SetHomeXY => set_x (q_lm s) (set_y (q_tm s) s)                                            (* fpdf.go:3394-3397 *)
    | SetColor u r g b => with_color u (rgb_color r g b) s                                      (* fpdf.go:890-945 *)
    | SetSpotColor u name =>                                                                    (* spotcolor.go:70-120, getSpotColor 56-64 *)
        if q_err s then s else
        match find_ink name (q_inks s) with
        | None => with_err true s
        | Some _ => let c := q_color s u in with_color u {| c_r := c_r c; c_g := c_g c; c_b := c_b c; c_spot := name |} s
        end
    | AddSpotColor name c m y k =>                                                              (* spotcolor.go:38-55 *)
        if q_err s then s else
        match find_ink name (q_inks s) with
        | None => with_inks (q_inks s ++ [(name, {| i_c := byte_bound c; i_m := byte_bound m; i_y := byte_bound y; i_k := byte_bound k |})]) s
        | Some _ => with_err true s
        end
    | SetLineWidth w => with_lw w s                                                             (* fpdf.go:990-999 *)
    | SetAlpha a mode =>                                                                        (* fpdf.go:1344-1368 *)
        if q_err s then s
        else if negb (existsb (beqb mode) modes) then with_err true s
        else if g_neg T a || g_over_one T a then with_err true s
        else with_alpha a mode s
    | SetFontSize z => with_size z (g_div T z (q_k s)) s                                        (* fpdf.go:2117-2123 *)
    | SetFontUnitSize z => with_size (g_mul T z (q_k s)) z s                                    (* fpdf.go:2127-2133 *)
    | AddPage => if q_err s then s else with_page (with_xy (q_lm s) (q_tm s) s)                 (* fpdf.go:719-815, beginpage 3523-3524 *)
    | SetError => with_err true s                                                               (* fpdf.go:284-288 *)
    | ClearError => with_err false s                                                            (* fpdf.go:260-262 *)
    end.
  Definition run (cs : list call) (s : gstate) : gstate := fold_left (fun s c => step c s) cs s.

  (** The getters: fpdf.go:307-313, 340-342, 495-499, 900-902, 922-924, 943-945, 1002-1004, 1327-1329, 3341-3362, 3375-3377, 2138-2140;
      spotcolor.go:122-161 *)
  Definition get_margins (s : gstate) := (q_lm s, q_tm s, q_rm s, q_bm s).
  Definition get_auto (s : gstate) := (q_auto s, q_bm s).
  Definition get_cell (s : gstate) := q_cm s.
  Definition get_xy (s : gstate) := (q_x s, q_y s).
  Definition get_color (u : what) (s : gstate) := let c := q_color s u in (c_r c, c_g c, c_b c).
  Definition get_line_width (s : gstate) := q_lw s.
  Definition get_alpha (s : gstate) := (q_alpha s, q_blend s).
  Definition get_font_size (s : gstate) := (q_pt s, q_unit s).
  (** spotcolor.go:122-137 [returnSpotColor], without error (a name that is selected is registered) *)
  Definition get_spot (u : what) (s : gstate) : bytes * ink :=
    let none := {| i_c := 0; i_m := 0; i_y := 0; i_k := 0 |} in
    let name := c_spot (q_color s u) in
    match name with
    | [] => ([], none)
    | _ => (name, match (if q_err s then None else find_ink name (q_inks s)) with Some i => i | None => none end)
    end.
End Get.
Arguments gstate : clear implicits.
Arguments call : clear implicits.
