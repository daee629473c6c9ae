(** The public API as a state machine.

    Part 1: the state of an [Fpdf] value that its methods read and write, and
    the programs that drive it.  The header, footer and page break functions
    an application registers are arbitrary programs over the same API, which
    may look at everything a getter returns and choose the next call from it.

    Numbers (Go float64) are an abstract type with its operations: no law of
    arithmetic is assumed here, so the theorems hold for IEEE doubles.  Page
    contents are lists of operators; [RawWriteStr] writes an opaque one. *)
From Verif Require Import Base TextModel.
From Coq Require Import String.
Local Open Scope string_scope.
Local Open Scope Z_scope.
Local Open Scope list_scope.

(** float64 and its operations; [f3] is Sprintf of %.3f *)
Record arith := mk_arith {
  num : Type;
  ofZ : Z -> num;
  nadd : num -> num -> num; nsub : num -> num -> num;
  nmul : num -> num -> num; ndiv : num -> num -> num;
  nopp : num -> num; nlt : num -> num -> bool; neq : num -> num -> bool;
  ncos : num -> num; nsin : num -> num; ntan : num -> num; npi : num;
  f3 : num -> bytes
}.

Section Api.
  Context {A : arith}.

  (** the errors the modelled methods record (the text of the message is
      replaced by a constructor per call of Errorf) *)
  Inductive error :=
  | EUser (b : bytes) | EClipOpen | ETransOpen | EBlend (b : bytes) | EAlpha
  | EClipSeq | EFont (fam style : bytes) | ENoFont | ELoad (b : bytes)
  | EScale | ESkew | ETransInactive | ETransSeq
  | ESpotDup (b : bytes) | ESpotUnknown (b : bytes)
  | EAssemble (b : bytes) | EWrite (b : bytes) | EPageBox (b : bytes) | ECreate (b : bytes).

  (** content stream operators.  [Paint] stands for path construction, path
      painting, text showing and Do operators, which leave the graphics state
      alone; [Raw] for whatever RawWriteStr and RawWriteBuf are given. *)
  Inductive op :=
  | Save | Restore
  | Cm (a b c d e f : num A)
  | Width (v : num A) | Cap (n : Z) | Join (n : Z) | Dash (l : list (num A)) (ph : num A)
  | Stroke (s : bytes) | Fill (s : bytes)
  | Tf (id : bytes) (size : num A) | Gs (n : Z) | Tw (v : num A) | Tr (n : Z)
  | BeginOC (id : Z) | EndOC
  | Paint (what : bytes) (args : list (num A))
  | Show (x y : num A) (txt : bytes)
  | Raw (b : bytes).

  (** one entry of f.buffer: a line written by out, or what enddoc wrote *)
  Inductive chunk := COp (o : op) | CDoc (b : bytes).

  (** linkType def.go:316-320 *)
  Record link := mk_link { k_x : num A; k_y : num A; k_w : num A; k_h : num A; k_id : Z; k_url : bytes }.

  (** the entries number p of f.pages, f.pageLinks and f.pageSizes *)
  Record page := mk_page { p_ops : list op; p_links : list link; p_size : option (num A * num A) }.

  (** colorType def.go:126-133 (components as ints; the printed operator in [c_str]) *)
  Record color := mk_color { c_r : Z; c_g : Z; c_b : Z; c_gray : bool; c_spot : option bytes; c_str : bytes }.

  (** spotColorType def.go:138-142 *)
  Record spot := mk_spot { sp_id : Z; sp_c : Z; sp_m : Z; sp_y : Z; sp_k : Z }.

  (** the fields of fontDefType def.go:695-720 the modelled methods use;
      [fd_width] is the width of a string in glyph units, see LineModel *)
  Record fontdef := mk_fontdef { fd_name : bytes; fd_id : bytes; fd_utf8 : bool; fd_width : bytes -> Z; fd_asc : Z; fd_desc : Z }.

  (** the error, the state machine and the page buffers: fields err, state, page, pages, pageLinks, pageSizes, buffer *)
  Record life := mk_life { l_err : option error; l_state : Z; l_page : nat; l_pages : list page; l_buf : list chunk }.
  Definition sl_err (v : option error) (r : life) : life := mk_life v (l_state r) (l_page r) (l_pages r) (l_buf r).
  Definition sl_state (v : Z) (r : life) : life := mk_life (l_err r) v (l_page r) (l_pages r) (l_buf r).
  Definition sl_page (v : nat) (r : life) : life := mk_life (l_err r) (l_state r) v (l_pages r) (l_buf r).
  Definition sl_pages (v : list page) (r : life) : life := mk_life (l_err r) (l_state r) (l_page r) v (l_buf r).
  Definition sl_buf (v : list chunk) (r : life) : life := mk_life (l_err r) (l_state r) (l_page r) (l_pages r) v.

  (** line style, colors, transparency and spot colors: fields lineWidth, capStyle, joinStyle, dashArray, dashPhase, color, colorFlag, alpha, blendMode, blendList, spotColorMap *)
  Record gfx := mk_gfx { g_lw : num A; g_cap : Z; g_join : Z; g_dash : list (num A); g_phase : num A; g_draw : color; g_fill : color; g_text : color; g_flag : bool; g_alpha : num A; g_mode : bytes; g_blends : list (bytes * bytes); g_spots : list (bytes * spot) }.
  Definition sg_lw (v : num A) (r : gfx) : gfx := mk_gfx v (g_cap r) (g_join r) (g_dash r) (g_phase r) (g_draw r) (g_fill r) (g_text r) (g_flag r) (g_alpha r) (g_mode r) (g_blends r) (g_spots r).
  Definition sg_cap (v : Z) (r : gfx) : gfx := mk_gfx (g_lw r) v (g_join r) (g_dash r) (g_phase r) (g_draw r) (g_fill r) (g_text r) (g_flag r) (g_alpha r) (g_mode r) (g_blends r) (g_spots r).
  Definition sg_join (v : Z) (r : gfx) : gfx := mk_gfx (g_lw r) (g_cap r) v (g_dash r) (g_phase r) (g_draw r) (g_fill r) (g_text r) (g_flag r) (g_alpha r) (g_mode r) (g_blends r) (g_spots r).
  Definition sg_dash (v : list (num A)) (r : gfx) : gfx := mk_gfx (g_lw r) (g_cap r) (g_join r) v (g_phase r) (g_draw r) (g_fill r) (g_text r) (g_flag r) (g_alpha r) (g_mode r) (g_blends r) (g_spots r).
  Definition sg_phase (v : num A) (r : gfx) : gfx := mk_gfx (g_lw r) (g_cap r) (g_join r) (g_dash r) v (g_draw r) (g_fill r) (g_text r) (g_flag r) (g_alpha r) (g_mode r) (g_blends r) (g_spots r).
  Definition sg_draw (v : color) (r : gfx) : gfx := mk_gfx (g_lw r) (g_cap r) (g_join r) (g_dash r) (g_phase r) v (g_fill r) (g_text r) (g_flag r) (g_alpha r) (g_mode r) (g_blends r) (g_spots r).
  Definition sg_fill (v : color) (r : gfx) : gfx := mk_gfx (g_lw r) (g_cap r) (g_join r) (g_dash r) (g_phase r) (g_draw r) v (g_text r) (g_flag r) (g_alpha r) (g_mode r) (g_blends r) (g_spots r).
  Definition sg_text (v : color) (r : gfx) : gfx := mk_gfx (g_lw r) (g_cap r) (g_join r) (g_dash r) (g_phase r) (g_draw r) (g_fill r) v (g_flag r) (g_alpha r) (g_mode r) (g_blends r) (g_spots r).
  Definition sg_flag (v : bool) (r : gfx) : gfx := mk_gfx (g_lw r) (g_cap r) (g_join r) (g_dash r) (g_phase r) (g_draw r) (g_fill r) (g_text r) v (g_alpha r) (g_mode r) (g_blends r) (g_spots r).
  Definition sg_alpha (v : num A) (r : gfx) : gfx := mk_gfx (g_lw r) (g_cap r) (g_join r) (g_dash r) (g_phase r) (g_draw r) (g_fill r) (g_text r) (g_flag r) v (g_mode r) (g_blends r) (g_spots r).
  Definition sg_mode (v : bytes) (r : gfx) : gfx := mk_gfx (g_lw r) (g_cap r) (g_join r) (g_dash r) (g_phase r) (g_draw r) (g_fill r) (g_text r) (g_flag r) (g_alpha r) v (g_blends r) (g_spots r).
  Definition sg_blends (v : list (bytes * bytes)) (r : gfx) : gfx := mk_gfx (g_lw r) (g_cap r) (g_join r) (g_dash r) (g_phase r) (g_draw r) (g_fill r) (g_text r) (g_flag r) (g_alpha r) (g_mode r) v (g_spots r).
  Definition sg_spots (v : list (bytes * spot)) (r : gfx) : gfx := mk_gfx (g_lw r) (g_cap r) (g_join r) (g_dash r) (g_phase r) (g_draw r) (g_fill r) (g_text r) (g_flag r) (g_alpha r) (g_mode r) (g_blends r) v.

  (** fields fontFamily, fontStyle, underline, strikeout, fontSizePt, fontSize, currentFont, fonts *)
  Record fnt := mk_fnt { f_fam : bytes; f_style : bytes; f_ul : bool; f_so : bool; f_pt : num A; f_size : num A; f_cur : fontdef; f_table : list (bytes * fontdef) }.
  Definition sf_fam (v : bytes) (r : fnt) : fnt := mk_fnt v (f_style r) (f_ul r) (f_so r) (f_pt r) (f_size r) (f_cur r) (f_table r).
  Definition sf_style (v : bytes) (r : fnt) : fnt := mk_fnt (f_fam r) v (f_ul r) (f_so r) (f_pt r) (f_size r) (f_cur r) (f_table r).
  Definition sf_ul (v : bool) (r : fnt) : fnt := mk_fnt (f_fam r) (f_style r) v (f_so r) (f_pt r) (f_size r) (f_cur r) (f_table r).
  Definition sf_so (v : bool) (r : fnt) : fnt := mk_fnt (f_fam r) (f_style r) (f_ul r) v (f_pt r) (f_size r) (f_cur r) (f_table r).
  Definition sf_pt (v : num A) (r : fnt) : fnt := mk_fnt (f_fam r) (f_style r) (f_ul r) (f_so r) v (f_size r) (f_cur r) (f_table r).
  Definition sf_size (v : num A) (r : fnt) : fnt := mk_fnt (f_fam r) (f_style r) (f_ul r) (f_so r) (f_pt r) v (f_cur r) (f_table r).
  Definition sf_cur (v : fontdef) (r : fnt) : fnt := mk_fnt (f_fam r) (f_style r) (f_ul r) (f_so r) (f_pt r) (f_size r) v (f_table r).
  Definition sf_table (v : list (bytes * fontdef)) (r : fnt) : fnt := mk_fnt (f_fam r) (f_style r) (f_ul r) (f_so r) (f_pt r) (f_size r) (f_cur r) v.

  (** position, margins and page geometry *)
  Record geo := mk_geo { x_k : num A; x_x : num A; x_y : num A; x_w : num A; x_h : num A; x_wpt : num A; x_hpt : num A; x_lm : num A; x_tm : num A; x_rm : num A; x_bm : num A; x_cm : num A; x_trig : num A; x_auto : bool; x_ws : num A; x_lasth : num A; x_curo : bytes; x_curw : num A; x_curh : num A; x_defo : bytes; x_defw : num A; x_defh : num A }.
  Definition sx_k (v : num A) (r : geo) : geo := mk_geo v (x_x r) (x_y r) (x_w r) (x_h r) (x_wpt r) (x_hpt r) (x_lm r) (x_tm r) (x_rm r) (x_bm r) (x_cm r) (x_trig r) (x_auto r) (x_ws r) (x_lasth r) (x_curo r) (x_curw r) (x_curh r) (x_defo r) (x_defw r) (x_defh r).
  Definition sx_x (v : num A) (r : geo) : geo := mk_geo (x_k r) v (x_y r) (x_w r) (x_h r) (x_wpt r) (x_hpt r) (x_lm r) (x_tm r) (x_rm r) (x_bm r) (x_cm r) (x_trig r) (x_auto r) (x_ws r) (x_lasth r) (x_curo r) (x_curw r) (x_curh r) (x_defo r) (x_defw r) (x_defh r).
  Definition sx_y (v : num A) (r : geo) : geo := mk_geo (x_k r) (x_x r) v (x_w r) (x_h r) (x_wpt r) (x_hpt r) (x_lm r) (x_tm r) (x_rm r) (x_bm r) (x_cm r) (x_trig r) (x_auto r) (x_ws r) (x_lasth r) (x_curo r) (x_curw r) (x_curh r) (x_defo r) (x_defw r) (x_defh r).
  Definition sx_w (v : num A) (r : geo) : geo := mk_geo (x_k r) (x_x r) (x_y r) v (x_h r) (x_wpt r) (x_hpt r) (x_lm r) (x_tm r) (x_rm r) (x_bm r) (x_cm r) (x_trig r) (x_auto r) (x_ws r) (x_lasth r) (x_curo r) (x_curw r) (x_curh r) (x_defo r) (x_defw r) (x_defh r).
  Definition sx_h (v : num A) (r : geo) : geo := mk_geo (x_k r) (x_x r) (x_y r) (x_w r) v (x_wpt r) (x_hpt r) (x_lm r) (x_tm r) (x_rm r) (x_bm r) (x_cm r) (x_trig r) (x_auto r) (x_ws r) (x_lasth r) (x_curo r) (x_curw r) (x_curh r) (x_defo r) (x_defw r) (x_defh r).
  Definition sx_wpt (v : num A) (r : geo) : geo := mk_geo (x_k r) (x_x r) (x_y r) (x_w r) (x_h r) v (x_hpt r) (x_lm r) (x_tm r) (x_rm r) (x_bm r) (x_cm r) (x_trig r) (x_auto r) (x_ws r) (x_lasth r) (x_curo r) (x_curw r) (x_curh r) (x_defo r) (x_defw r) (x_defh r).
  Definition sx_hpt (v : num A) (r : geo) : geo := mk_geo (x_k r) (x_x r) (x_y r) (x_w r) (x_h r) (x_wpt r) v (x_lm r) (x_tm r) (x_rm r) (x_bm r) (x_cm r) (x_trig r) (x_auto r) (x_ws r) (x_lasth r) (x_curo r) (x_curw r) (x_curh r) (x_defo r) (x_defw r) (x_defh r).
  Definition sx_lm (v : num A) (r : geo) : geo := mk_geo (x_k r) (x_x r) (x_y r) (x_w r) (x_h r) (x_wpt r) (x_hpt r) v (x_tm r) (x_rm r) (x_bm r) (x_cm r) (x_trig r) (x_auto r) (x_ws r) (x_lasth r) (x_curo r) (x_curw r) (x_curh r) (x_defo r) (x_defw r) (x_defh r).
  Definition sx_tm (v : num A) (r : geo) : geo := mk_geo (x_k r) (x_x r) (x_y r) (x_w r) (x_h r) (x_wpt r) (x_hpt r) (x_lm r) v (x_rm r) (x_bm r) (x_cm r) (x_trig r) (x_auto r) (x_ws r) (x_lasth r) (x_curo r) (x_curw r) (x_curh r) (x_defo r) (x_defw r) (x_defh r).
  Definition sx_rm (v : num A) (r : geo) : geo := mk_geo (x_k r) (x_x r) (x_y r) (x_w r) (x_h r) (x_wpt r) (x_hpt r) (x_lm r) (x_tm r) v (x_bm r) (x_cm r) (x_trig r) (x_auto r) (x_ws r) (x_lasth r) (x_curo r) (x_curw r) (x_curh r) (x_defo r) (x_defw r) (x_defh r).
  Definition sx_bm (v : num A) (r : geo) : geo := mk_geo (x_k r) (x_x r) (x_y r) (x_w r) (x_h r) (x_wpt r) (x_hpt r) (x_lm r) (x_tm r) (x_rm r) v (x_cm r) (x_trig r) (x_auto r) (x_ws r) (x_lasth r) (x_curo r) (x_curw r) (x_curh r) (x_defo r) (x_defw r) (x_defh r).
  Definition sx_cm (v : num A) (r : geo) : geo := mk_geo (x_k r) (x_x r) (x_y r) (x_w r) (x_h r) (x_wpt r) (x_hpt r) (x_lm r) (x_tm r) (x_rm r) (x_bm r) v (x_trig r) (x_auto r) (x_ws r) (x_lasth r) (x_curo r) (x_curw r) (x_curh r) (x_defo r) (x_defw r) (x_defh r).
  Definition sx_trig (v : num A) (r : geo) : geo := mk_geo (x_k r) (x_x r) (x_y r) (x_w r) (x_h r) (x_wpt r) (x_hpt r) (x_lm r) (x_tm r) (x_rm r) (x_bm r) (x_cm r) v (x_auto r) (x_ws r) (x_lasth r) (x_curo r) (x_curw r) (x_curh r) (x_defo r) (x_defw r) (x_defh r).
  Definition sx_auto (v : bool) (r : geo) : geo := mk_geo (x_k r) (x_x r) (x_y r) (x_w r) (x_h r) (x_wpt r) (x_hpt r) (x_lm r) (x_tm r) (x_rm r) (x_bm r) (x_cm r) (x_trig r) v (x_ws r) (x_lasth r) (x_curo r) (x_curw r) (x_curh r) (x_defo r) (x_defw r) (x_defh r).
  Definition sx_ws (v : num A) (r : geo) : geo := mk_geo (x_k r) (x_x r) (x_y r) (x_w r) (x_h r) (x_wpt r) (x_hpt r) (x_lm r) (x_tm r) (x_rm r) (x_bm r) (x_cm r) (x_trig r) (x_auto r) v (x_lasth r) (x_curo r) (x_curw r) (x_curh r) (x_defo r) (x_defw r) (x_defh r).
  Definition sx_lasth (v : num A) (r : geo) : geo := mk_geo (x_k r) (x_x r) (x_y r) (x_w r) (x_h r) (x_wpt r) (x_hpt r) (x_lm r) (x_tm r) (x_rm r) (x_bm r) (x_cm r) (x_trig r) (x_auto r) (x_ws r) v (x_curo r) (x_curw r) (x_curh r) (x_defo r) (x_defw r) (x_defh r).
  Definition sx_curo (v : bytes) (r : geo) : geo := mk_geo (x_k r) (x_x r) (x_y r) (x_w r) (x_h r) (x_wpt r) (x_hpt r) (x_lm r) (x_tm r) (x_rm r) (x_bm r) (x_cm r) (x_trig r) (x_auto r) (x_ws r) (x_lasth r) v (x_curw r) (x_curh r) (x_defo r) (x_defw r) (x_defh r).
  Definition sx_curw (v : num A) (r : geo) : geo := mk_geo (x_k r) (x_x r) (x_y r) (x_w r) (x_h r) (x_wpt r) (x_hpt r) (x_lm r) (x_tm r) (x_rm r) (x_bm r) (x_cm r) (x_trig r) (x_auto r) (x_ws r) (x_lasth r) (x_curo r) v (x_curh r) (x_defo r) (x_defw r) (x_defh r).
  Definition sx_curh (v : num A) (r : geo) : geo := mk_geo (x_k r) (x_x r) (x_y r) (x_w r) (x_h r) (x_wpt r) (x_hpt r) (x_lm r) (x_tm r) (x_rm r) (x_bm r) (x_cm r) (x_trig r) (x_auto r) (x_ws r) (x_lasth r) (x_curo r) (x_curw r) v (x_defo r) (x_defw r) (x_defh r).
  Definition sx_defo (v : bytes) (r : geo) : geo := mk_geo (x_k r) (x_x r) (x_y r) (x_w r) (x_h r) (x_wpt r) (x_hpt r) (x_lm r) (x_tm r) (x_rm r) (x_bm r) (x_cm r) (x_trig r) (x_auto r) (x_ws r) (x_lasth r) (x_curo r) (x_curw r) (x_curh r) v (x_defw r) (x_defh r).
  Definition sx_defw (v : num A) (r : geo) : geo := mk_geo (x_k r) (x_x r) (x_y r) (x_w r) (x_h r) (x_wpt r) (x_hpt r) (x_lm r) (x_tm r) (x_rm r) (x_bm r) (x_cm r) (x_trig r) (x_auto r) (x_ws r) (x_lasth r) (x_curo r) (x_curw r) (x_curh r) (x_defo r) v (x_defh r).
  Definition sx_defh (v : num A) (r : geo) : geo := mk_geo (x_k r) (x_x r) (x_y r) (x_w r) (x_h r) (x_wpt r) (x_hpt r) (x_lm r) (x_tm r) (x_rm r) (x_bm r) (x_cm r) (x_trig r) (x_auto r) (x_ws r) (x_lasth r) (x_curo r) (x_curw r) (x_curh r) (x_defo r) (x_defw r) v.

  (** fields clipNest, transformNest and layer *)
  Record nest := mk_nest { n_clip : Z; n_tran : Z; n_layer : option Z; n_layers : list (bytes * bool) }.
  Definition sn_clip (v : Z) (r : nest) : nest := mk_nest v (n_tran r) (n_layer r) (n_layers r).
  Definition sn_tran (v : Z) (r : nest) : nest := mk_nest (n_clip r) v (n_layer r) (n_layers r).
  Definition sn_layer (v : option Z) (r : nest) : nest := mk_nest (n_clip r) (n_tran r) v (n_layers r).
  Definition sn_layers (v : list (bytes * bool)) (r : nest) : nest := mk_nest (n_clip r) (n_tran r) (n_layer r) v.

  (** everything the getters return, and the number of layers and links created so far
      (AddLayer and AddLink return these minus one) *)
  Record obs := mk_obs { o_err : option error; o_page : nat; o_count : nat; o_gfx : gfx; o_fnt : fnt; o_geo : geo; o_layers : nat; o_links : nat }.

  (** how the io.Writer given to Output behaves *)
  Inductive writer := Full | Short (m : nat) (e : bytes).

  (** API calls and the programs made of them.  [Done b] returns b, which only
      matters for the page break function.  [JustifyWs] is not a call of its
      own: it is what MultiCell does between the CellFormat calls it makes, so
      that MultiCell, too, is a program. *)
  Inductive call :=
  | SetError (e : error) | ClearError
  | AddPage | AddPageFormat (o : bytes) (w h : num A) | SetPage (k : Z) | Close | Output (w : writer)
  | OutputFileAndClose (create : option bytes) (w : writer)
  | SetHeaderFunc (p : option prog) | SetHeaderFuncMode (p : option prog) (home : bool)
  | SetFooterFunc (p : option prog) | SetFooterFuncLpi (p : option (bool -> prog))
  | SetAcceptPageBreakFunc (p : prog)
  | SetMargins (l t r : num A) | SetLeftMargin (m : num A) | SetTopMargin (m : num A) | SetRightMargin (m : num A)
  | SetCellMargin (m : num A) | SetAutoPageBreak (b : bool) (m : num A)
  | SetX (x : num A) | SetY (y : num A) | SetXY (x y : num A) | SetHomeXY | Ln (h : num A)
  | SetDrawColor (r g b : Z) | SetFillColor (r g b : Z) | SetTextColor (r g b : Z)
  | AddSpotColor (nm : bytes) (c m y k : Z)
  | SetDrawSpotColor (nm : bytes) (t : Z) | SetFillSpotColor (nm : bytes) (t : Z) | SetTextSpotColor (nm : bytes) (t : Z)
  | SetLineWidth (w : num A) | SetLineCapStyle (s : bytes) | SetLineJoinStyle (s : bytes)
  | SetDashPattern (l : list (num A)) (ph : num A)
  | SetAlpha (a : num A) (m : bytes)
  | AddFontDef (fam style : bytes) (r : fontdef + bytes)
  | SetFont (fam style : bytes) (size : num A) | SetFontStyle (style : bytes)
  | SetFontSize (size : num A) | SetFontUnitSize (size : num A)
  | SetWordSpacing (v : num A) | JustifyWs (v : num A) | SetTextRenderingMode (n : Z)
  | Draw (what : bytes) (args : list (num A)) | DrawRotated (m : list (num A)) (what : bytes) (args : list (num A))
  | MoveTo (x y : num A) | LineTo (x y : num A)
  | RoundedRectExt (args : list (num A)) (style : bytes)
  | Gradient (args : list (num A)) | UseTemplate (id : bytes) (m : list (num A))
  | Text (x y : num A) (txt : bytes)
  | ClipBegin (what : bytes) (args : list (num A)) | ClipEnd
  | TransformBegin | TransformScale (sw sh x y : num A) | TransformRotate (a x y : num A)
  | TransformSkew (ax ay x y : num A) | TransformTranslate (x y : num A)
  | Transform (a b c d e f : num A) | TransformEnd
  | AddLayer (nm : bytes) (v : bool) | BeginLayer (id : Z) | EndLayer
  | AddLink | SetLink (l : Z) (y : num A) (p : Z) | Link (x y w h : num A) (l : Z) | LinkString (x y w h : num A) (u : bytes)
  | SetPageBoxRec (t : bytes)
  | CellFormat (w h : num A) (txt border : bytes) (ln : Z) (align : bytes) (fill : bool) (l : Z) (u : bytes)
  | ImageOut (iw ih dpi : num A) (id : bytes) (x y w h : num A) (negx flow : bool) (l : Z) (u : bytes)
  | RawWriteStr (b : bytes)
  with prog := Done (b : bool) | Step (c : call) (k : obs -> prog).

  (** ghost record of the footer and header calls, of what each Output wrote,
      and of how deep in clipping and transformation contexts and in which
      layer the document was when drawing left or entered a page *)
  Inductive event :=
  | EvHeader (p : nat) | EvFooter (p : nat) (last : option bool)
  | EvWrote (l : list chunk)
  | EvTurn (depth : Z) (layer : option Z).

  (** fields headerFnc, headerHomeMode, footerFnc, footerFncLpi,
      acceptPageBreak (None: the default set in fpdfNew), inHeader, inFooter *)
  Record hooks := mk_hooks { h_head : option prog; h_home : bool; h_foot : option prog; h_footl : option (bool -> prog); h_accept : option prog; h_inh : bool; h_inf : bool }.
  Definition sh_head (v : option prog) (r : hooks) : hooks := mk_hooks v (h_home r) (h_foot r) (h_footl r) (h_accept r) (h_inh r) (h_inf r).
  Definition sh_home (v : bool) (r : hooks) : hooks := mk_hooks (h_head r) v (h_foot r) (h_footl r) (h_accept r) (h_inh r) (h_inf r).
  Definition sh_foot (v : option prog) (r : hooks) : hooks := mk_hooks (h_head r) (h_home r) v (h_footl r) (h_accept r) (h_inh r) (h_inf r).
  Definition sh_footl (v : option (bool -> prog)) (r : hooks) : hooks := mk_hooks (h_head r) (h_home r) (h_foot r) v (h_accept r) (h_inh r) (h_inf r).
  Definition sh_accept (v : option prog) (r : hooks) : hooks := mk_hooks (h_head r) (h_home r) (h_foot r) (h_footl r) v (h_inh r) (h_inf r).
  Definition sh_inh (v : bool) (r : hooks) : hooks := mk_hooks (h_head r) (h_home r) (h_foot r) (h_footl r) (h_accept r) v (h_inf r).
  Definition sh_inf (v : bool) (r : hooks) : hooks := mk_hooks (h_head r) (h_home r) (h_foot r) (h_footl r) (h_accept r) (h_inh r) v.

  Record st := mk_st { t_life : life; t_gfx : gfx; t_fnt : fnt; t_geo : geo; t_nest : nest; t_hook : hooks; t_links : list (Z * num A); t_log : list event }.
  Definition st_life (v : life) (s : st) : st := mk_st v (t_gfx s) (t_fnt s) (t_geo s) (t_nest s) (t_hook s) (t_links s) (t_log s).
  Definition st_gfx (v : gfx) (s : st) : st := mk_st (t_life s) v (t_fnt s) (t_geo s) (t_nest s) (t_hook s) (t_links s) (t_log s).
  Definition st_fnt (v : fnt) (s : st) : st := mk_st (t_life s) (t_gfx s) v (t_geo s) (t_nest s) (t_hook s) (t_links s) (t_log s).
  Definition st_geo (v : geo) (s : st) : st := mk_st (t_life s) (t_gfx s) (t_fnt s) v (t_nest s) (t_hook s) (t_links s) (t_log s).
  Definition st_nest (v : nest) (s : st) : st := mk_st (t_life s) (t_gfx s) (t_fnt s) (t_geo s) v (t_hook s) (t_links s) (t_log s).
  Definition st_hook (v : hooks) (s : st) : st := mk_st (t_life s) (t_gfx s) (t_fnt s) (t_geo s) (t_nest s) v (t_links s) (t_log s).
  Definition st_links (v : list (Z * num A)) (s : st) : st := mk_st (t_life s) (t_gfx s) (t_fnt s) (t_geo s) (t_nest s) (t_hook s) v (t_log s).
  Definition st_log (v : list event) (s : st) : st := mk_st (t_life s) (t_gfx s) (t_fnt s) (t_geo s) (t_nest s) (t_hook s) (t_links s) v.

  Local Infix "+f" := (nadd A) (at level 50, left associativity).
  Local Infix "-f" := (nsub A) (at level 50, left associativity).
  Local Infix "*f" := (nmul A) (at level 40, left associativity).
  Local Infix "/f" := (ndiv A) (at level 40, left associativity).
  Local Notation "'Z#' z" := (ofZ A z) (at level 9).

  (** shorthands for updates of one group of fields *)
  Definition on_life (u : life -> life) (s : st) : st := st_life (u (t_life s)) s.
  Definition on_gfx (u : gfx -> gfx) (s : st) : st := st_gfx (u (t_gfx s)) s.
  Definition on_fnt (u : fnt -> fnt) (s : st) : st := st_fnt (u (t_fnt s)) s.
  Definition on_geo (u : geo -> geo) (s : st) : st := st_geo (u (t_geo s)) s.
  Definition on_nest (u : nest -> nest) (s : st) : st := st_nest (u (t_nest s)) s.
  Definition on_hook (u : hooks -> hooks) (s : st) : st := st_hook (u (t_hook s)) s.

  Definition errof (s : st) : option error := l_err (t_life s).
  Definition failed (s : st) : bool := match errof s with Some _ => true | None => false end.
  Definition pageno (s : st) : nat := l_page (t_life s).
  Definition on_page (s : st) : bool := negb (Nat.eqb (pageno s) 0).

  (** f.err = e *)
  Definition force_err (e : error) (s : st) : st := on_life (sl_err (Some e)) s.
  (** SetError fpdf.go:284-288, and the guarded assignments of the same form *)
  Definition fail (e : error) (s : st) : st := if failed s then s else force_err e s.

  Fixpoint upd {B} (n : nat) (u : B -> B) (l : list B) : list B :=
    match n, l with
    | _, [] => []
    | O, a :: l => u a :: l
    | S n, a :: l => a :: upd n u l
    end.

  (** out fpdf.go:3756-3764 and outf fpdf.go:3794-3796, one operator or several.
      Go would panic if f.page were not an index of f.pages; it always is, see
      [page_in_range]. *)
  Definition emit (l : list op) (s : st) : st :=
    if l_state (t_life s) =? 2 then
      on_life (fun r => sl_pages (upd (l_page r) (fun p => mk_page (p_ops p ++ l) (p_links p) (p_size p)) (l_pages r)) r) s
    else on_life (fun r => sl_buf (l_buf r ++ List.map COp l) r) s.

  (** "if f.page > 0 { f.out(..) }" *)
  Definition emit_on_page (l : list op) (s : st) : st := if on_page s then emit l s else s.

  (** newLink fpdf.go:2163-2171 *)
  Definition new_link (x y w h : num A) (id : Z) (url : bytes) (s : st) : st :=
    let k := x_k (t_geo s) in
    let ln := mk_link (x *f k) (x_hpt (t_geo s) -f y *f k) (w *f k) (h *f k) id url in
    on_life (fun r => sl_pages (upd (l_page r) (fun p => mk_page (p_ops p) (p_links p ++ [ln]) (p_size p)) (l_pages r)) r) s.

  (** strings.ToUpper and strings.ToLower on ASCII; other bytes are left alone
      (Go also maps non-ASCII letters) *)
  Definition up1 (c : Z) : Z := if (97 <=? c) && (c <=? 122) then c - 32 else c.
  Definition low1 (c : Z) : Z := if (65 <=? c) && (c <=? 90) then c + 32 else c.
  Definition upper (b : bytes) : bytes := List.map up1 b.
  Definition lower (b : bytes) : bytes := List.map low1 b.

  (** colorComp fpdf.go:854-861, byteBound spotcolor.go:24-29 *)
  Definition comp (v : Z) : Z := if v <? 0 then 0 else if v >? 255 then 255 else v.
  Definition byte_bound (v : Z) : Z := if v >? 100 then 100 else v.

  (** rgbColorValue fpdf.go:863-881 with non-empty grayStr and fullStr *)
  Definition rgb (r g b : Z) (gray full : bytes) : color :=
    let r := comp r in let g := comp g in let b := comp b in
    let v z := Z# z /f Z# 255 in
    let isgray := (r =? g) && neq A (v r) (v b) in
    mk_color r g b isgray None
      (if isgray then f3 A (v r) ++ bs " " ++ gray
       else f3 A (v r) ++ bs " " ++ f3 A (v g) ++ bs " " ++ f3 A (v b) ++ bs " " ++ full).

  (** setDrawColor fpdf.go:889-894, setFillColor fpdf.go:911-917, setTextColor fpdf.go:933-936 *)
  Definition set_draw_color (r g b : Z) (s : st) : st :=
    let c := rgb r g b (bs "G") (bs "RG") in
    emit_on_page [Stroke (c_str c)] (on_gfx (sg_draw c) s).
  Definition set_fill_color (r g b : Z) (s : st) : st :=
    let c := rgb r g b (bs "g") (bs "rg") in
    emit_on_page [Fill (c_str c)] (on_gfx (fun x => sg_flag (negb (beqb (c_str c) (c_str (g_text x)))) (sg_fill c x)) s).
  Definition set_text_color (r g b : Z) (s : st) : st :=
    let c := rgb r g b (bs "g") (bs "rg") in
    on_gfx (fun x => sg_flag (negb (beqb (c_str (g_fill x)) (c_str c))) (sg_text c x)) s.

  Fixpoint assoc {B} (k : bytes) (l : list (bytes * B)) : option B :=
    match l with [] => None | (k', v) :: l => if beqb k k' then Some v else assoc k l end.

  (** AddSpotColor spotcolor.go:36-54 *)
  Definition add_spot (nm : bytes) (c m y k : Z) (s : st) : st :=
    if failed s then s else
    match assoc nm (g_spots (t_gfx s)) with
    | None => on_gfx (fun x => sg_spots (g_spots x ++ [(nm, mk_spot (Z.of_nat (List.length (g_spots x)) + 1) (byte_bound c) (byte_bound m) (byte_bound y) (byte_bound k))]) x) s
    | Some _ => force_err (ESpotDup nm) s
    end.

  (** getSpotColor spotcolor.go:56-64 *)
  Definition get_spot (nm : bytes) (s : st) : st * option spot :=
    if failed s then (s, None) else
    match assoc nm (g_spots (t_gfx s)) with
    | Some c => (s, Some c)
    | None => (force_err (ESpotUnknown nm) s, None)
    end.

  Definition spot_str (cs sc : bytes) (id t : Z) : bytes :=
    bs "/CS" ++ dec id ++ bs " " ++ cs ++ bs " " ++ f3 A (Z# (byte_bound t) /f Z# 100) ++ bs " " ++ sc.
  Definition with_spot (nm str : bytes) (c : color) : color :=
    mk_color (c_r c) (c_g c) (c_b c) (c_gray c) (Some nm) str.

  (** SetDrawSpotColor spotcolor.go:70-83 *)
  Definition set_draw_spot (nm : bytes) (t : Z) (s : st) : st :=
    match get_spot nm s with
    | (s, None) => s
    | (s, Some c) =>
        let str := spot_str (bs "CS") (bs "SCN") (sp_id c) t in
        emit_on_page [Stroke str] (on_gfx (fun x => sg_draw (with_spot nm str (g_draw x)) x) s)
    end.
  (** SetFillSpotColor spotcolor.go:89-103 *)
  Definition set_fill_spot (nm : bytes) (t : Z) (s : st) : st :=
    match get_spot nm s with
    | (s, None) => s
    | (s, Some c) =>
        let str := spot_str (bs "cs") (bs "scn") (sp_id c) t in
        emit_on_page [Fill str] (on_gfx (fun x => sg_flag (negb (beqb str (c_str (g_text x)))) (sg_fill (with_spot nm str (g_fill x)) x)) s)
    end.
  (** SetTextSpotColor spotcolor.go:109-121; the last line compares the new
      text color with itself *)
  Definition set_text_spot (nm : bytes) (t : Z) (s : st) : st :=
    match get_spot nm s with
    | (s, None) => s
    | (s, Some c) =>
        let str := spot_str (bs "cs") (bs "scn") (sp_id c) t in
        on_gfx (fun x => sg_flag (negb (beqb str str)) (sg_text (with_spot nm str (g_text x)) x)) s
    end.

  (** SetLineWidth fpdf.go:990-999 *)
  Definition set_line_width (w : num A) (s : st) : st :=
    emit_on_page [Width (w *f x_k (t_geo s))] (on_gfx (sg_lw w) s).
  (** SetLineCapStyle fpdf.go:1010-1024 *)
  Definition cap_of (b : bytes) : Z := if beqb b (bs "round") then 1 else if beqb b (bs "square") then 2 else 0.
  Definition set_cap (b : bytes) (s : st) : st := emit_on_page [Cap (cap_of b)] (on_gfx (sg_cap (cap_of b)) s).
  (** SetLineJoinStyle fpdf.go:1029-1043 *)
  Definition join_of (b : bytes) : Z := if beqb b (bs "round") then 1 else if beqb b (bs "bevel") then 2 else 0.
  Definition set_join (b : bytes) (s : st) : st := emit_on_page [Join (join_of b)] (on_gfx (sg_join (join_of b)) s).
  (** SetDashPattern fpdf.go:1053-1067 *)
  Definition set_dash (l : list (num A)) (ph : num A) (s : st) : st :=
    let k := x_k (t_geo s) in
    let l := List.map (fun v => v *f k) l in
    emit_on_page [Dash l (ph *f k)] (on_gfx (fun x => sg_phase (ph *f k) (sg_dash l x)) s).

  (** the case labels of SetAlpha fpdf.go:1349-1359 *)
  Definition blend_modes : list bytes :=
    [bs "Normal"; bs "Multiply"; bs "Screen"; bs "Overlay"; bs "Darken"; bs "Lighten"; bs "ColorDodge";
     bs "ColorBurn"; bs "HardLight"; bs "SoftLight"; bs "Difference"; bs "Exclusion"; bs "Hue";
     bs "Saturation"; bs "Color"; bs "Luminosity"; []].

  Fixpoint index_of (a m : bytes) (l : list (bytes * bytes)) : option nat :=
    match l with
    | [] => None
    | (a', m') :: l => if beqb a a' && beqb m m' then Some O else option_map S (index_of a m l)
    end.

  (** SetAlpha fpdf.go:1344-1374.  [g_blends] is f.blendList without its unused
      entry 0; f.blendMap is the position of an (alpha, mode) pair in it (the key
      "alpha mode" determines the pair because neither part holds a space). *)
  Definition set_alpha (a : num A) (m : bytes) (s : st) : st :=
    if failed s then s else
    if negb (List.existsb (beqb m) blend_modes) then force_err (EBlend m) s else
    if nlt A a (Z# 0) || nlt A (Z# 1) a then force_err EAlpha s else
    let s := on_gfx (fun x => sg_mode m (sg_alpha a x)) s in
    let astr := f3 A a in
    match index_of astr m (g_blends (t_gfx s)) with
    | Some i => emit [Gs (Z.of_nat i + 1)] s
    | None =>
        let pos := Z.of_nat (List.length (g_blends (t_gfx s))) + 1 in
        emit [Gs pos] (on_gfx (fun x => sg_blends (g_blends x ++ [(astr, m)]) x) s)
    end.

  (** fontFamilyEscape util.go:458-462 *)
  Definition fam_escape (b : bytes) : bytes := replace_all (bs " ") (bs "#20") b.
  Definition without (c : Z) (b : bytes) : bytes := filter (fun d => negb (d =? c)) b.
  Definition has (c : Z) (b : bytes) : bool := List.existsb (Z.eqb c) b.

  (** f.coreFonts fpdf.go:116-122 *)
  Definition core_families : list bytes :=
    [bs "courier"; bs "helvetica"; bs "times"; bs "symbol"; bs "zapfdingbats"].

  (** coreFontReader and loadfont: the definition embedded in the library for
      a core family and style, or an error *)
  Variable core_font : bytes -> bytes -> fontdef + bytes.

  (** the style string as SetFont fpdf.go:2045-2056 normalises it *)
  Definition norm_style (st : bytes) : bytes :=
    let st := upper st in
    let st := if has 85 st then without 85 st else st in
    let st := if has 83 st then without 83 st else st in
    if beqb st (bs "IB") then bs "BI" else st.

  (** getFontKey fpdf.go:1935-1942 *)
  Definition font_key (fam st : bytes) : bytes :=
    let st := upper st in
    lower fam ++ (if beqb st (bs "IB") then bs "BI" else st).

  (** AddFontFromReader fpdf.go:1947-1991, which AddFont fpdf.go:1643 and
      AddFontFromBytes fpdf.go:1793 end in, once the definition has been read
      ([inl]) or could not be read ([inr]).  Encodings and font files are not
      part of this model. *)
  Definition add_font (fam sty : bytes) (r : fontdef + bytes) (s : st) : st :=
    if failed s then s else
    let key := font_key (fam_escape fam) sty in
    match assoc key (f_table (t_fnt s)) with
    | Some _ => s
    | None =>
        match r with
        | inr e => force_err (ELoad e) s
        | inl fd => on_fnt (fun x => sf_table (f_table x ++ [(key, fd)]) x) s
        end
    end.

  (** the end of SetFont fpdf.go:2092-2107 *)
  Definition select_font (fam sty : bytes) (fd : fontdef) (size : num A) (s : st) : st :=
    emit_on_page [Tf (fd_id fd) size]
      (on_fnt (fun x => sf_cur fd (sf_size (size /f x_k (t_geo s)) (sf_pt size (sf_style sty (sf_fam fam x))))) s).

  (** SetFont fpdf.go:2031-2108 *)
  Definition set_font (fam sty : bytes) (size : num A) (s : st) : st :=
    if failed s then s else
    let fam := fam_escape fam in
    let fam := match fam with [] => f_fam (t_fnt s) | _ => lower fam end in
    let usty := upper sty in
    let s := on_fnt (fun x => sf_so (has 83 (without 85 usty)) (sf_ul (has 85 usty) x)) s in
    let sty := norm_style sty in
    let size := if neq A size (Z# 0) then f_pt (t_fnt s) else size in
    match assoc (fam ++ sty) (f_table (t_fnt s)) with
    | Some fd => select_font fam sty fd size s
    | None =>
        let fam := if beqb fam (bs "arial") then bs "helvetica" else fam in
        if List.existsb (beqb fam) core_families then
          let fam := if beqb fam (bs "symbol") then bs "zapfdingbats" else fam in
          let sty := if beqb fam (bs "zapfdingbats") then [] else sty in
          match assoc (fam ++ sty) (f_table (t_fnt s)) with
          | Some fd => select_font fam sty fd size s
          | None =>
              let s := add_font fam sty (core_font fam sty) s in
              if failed s then s else
              match assoc (fam ++ sty) (f_table (t_fnt s)) with
              | Some fd => select_font fam sty fd size s
              | None => s
              end
          end
        else force_err (EFont fam sty) s
    end.

  (** SetFontSize fpdf.go:2117-2123 and SetFontUnitSize fpdf.go:2127-2133 *)
  Definition set_font_size (size : num A) (s : st) : st :=
    emit_on_page [Tf (fd_id (f_cur (t_fnt s))) size]
      (on_fnt (fun x => sf_size (size /f x_k (t_geo s)) (sf_pt size x)) s).
  Definition set_font_unit_size (size : num A) (s : st) : st :=
    let pt := size *f x_k (t_geo s) in
    emit_on_page [Tf (fd_id (f_cur (t_fnt s))) pt] (on_fnt (fun x => sf_size size (sf_pt pt x)) s).

  (** SetX fpdf.go:3366-3372, SetY fpdf.go:3382-3390, SetHomeXY fpdf.go:3394-3397, SetXY fpdf.go:3402-3405 *)
  Definition nge (a b : num A) : bool := nlt A b a || neq A a b.
  Definition set_x (x : num A) (s : st) : st :=
    on_geo (fun g => sx_x (if nge x (Z# 0) then x else x_w g +f x) g) s.
  Definition set_y (y : num A) (s : st) : st :=
    on_geo (fun g => sx_y (if nge y (Z# 0) then y else x_h g +f y) (sx_x (x_lm g) g)) s.
  Definition set_home (s : st) : st :=
    let s := set_y (x_tm (t_geo s)) s in set_x (x_lm (t_geo s)) s.
  Definition set_xy (x y : num A) (s : st) : st := set_x x (set_y y s).

  (** Ln fpdf.go:2979-2986 *)
  Definition line_break (h : num A) (s : st) : st :=
    on_geo (fun g => sx_y (x_y g +f (if nlt A h (Z# 0) then x_lasth g else h)) (sx_x (x_lm g) g)) s.

  (** EndLayer layer.go:65-70, BeginLayer layer.go:55-61, AddLayer layer.go:45-49 *)
  Definition end_layer (s : st) : st :=
    match n_layer (t_nest s) with
    | None => s
    | Some _ => on_nest (sn_layer None) (emit [EndOC] s)
    end.
  Definition begin_layer (id : Z) (s : st) : st :=
    let s := end_layer s in
    if (0 <=? id) && (id <? Z.of_nat (List.length (n_layers (t_nest s)))) then
      on_nest (sn_layer (Some id)) (emit [BeginOC id] s)
    else s.
  Definition add_layer (nm : bytes) (v : bool) (s : st) : st :=
    on_nest (fun n => sn_layers (n_layers n ++ [(nm, v)]) n) s.

  Definition log (e : event) (s : st) : st := st_log (t_log s ++ [e]) s.
  Definition turn (s : st) : st := log (EvTurn (n_clip (t_nest s) + n_tran (t_nest s)) (n_layer (t_nest s))) s.

  (** beginpage fpdf.go:3509-3551 (page boxes and attachments not modelled), in
      three steps: the new page, its size, and its entry in f.pageSizes *)
  Definition fresh_page (s : st) : st :=
    let s := on_life (fun r => sl_state 2 (sl_pages (l_pages r ++ [mk_page [] [] None]) (sl_page (S (l_page r)) r))) (turn s) in
    on_fnt (sf_fam []) (on_geo (fun g => sx_y (x_tm g) (sx_x (x_lm g) g)) s).
  Definition resize (o : bytes) (w h : num A) (g : geo) : geo :=
    if negb (beqb o (x_curo g)) || negb (neq A w (x_curw g)) || negb (neq A h (x_curh g)) then
      let '(pw, ph) := if beqb o (bs "P") then (w, h) else (h, w) in
      sx_curh h (sx_curw w (sx_curo o (sx_trig (ph -f x_bm g)
        (sx_hpt (ph *f x_k g) (sx_wpt (pw *f x_k g) (sx_h ph (sx_w pw g)))))))
    else g.
  Definition note_size (o : bytes) (w h : num A) (s : st) : st :=
    let g := t_geo s in
    if negb (beqb o (x_defo g)) || negb (neq A w (x_defw g)) || negb (neq A h (x_defh g)) then
      on_life (fun r => sl_pages (upd (l_page r) (fun p => mk_page (p_ops p) (p_links p) (Some (x_wpt g, x_hpt g))) (l_pages r)) r) s
    else s.
  Definition begin_page (o : bytes) (w h : num A) (s : st) : st :=
    if failed s then s else
    let s := fresh_page s in
    let o := match o with [] => x_defo (t_geo s) | c :: _ => [up1 c] end in
    note_size o w h (on_geo (resize o w h) s).

  (** endpage fpdf.go:3553-3556 *)
  Definition end_page (s : st) : st := on_life (sl_state 1) (turn (end_layer s)).

  (** what AddPageFormat saves before the footer runs, fpdf.go:730-743 *)
  Record saved := mk_saved { v_fam : bytes; v_style : bytes; v_pt : num A; v_lw : num A; v_draw : color; v_fill : color; v_text : color; v_flag : bool }.
  Definition save_state (s : st) : saved :=
    let f := t_fnt s in let g := t_gfx s in
    mk_saved (f_fam f) (f_style f ++ (if f_ul f then bs "U" else []) ++ (if f_so f then bs "S" else []))
             (f_pt f) (g_lw g) (g_draw g) (g_fill g) (g_text g) (g_flag g).

  (** a registered function, called as a program *)
  Definition runner := prog -> st -> option (bool * st).
  Definition call_hook (r : runner) (p : prog) (s : st) : option st := option_map snd (r p s).

  (** the footer of the current page: fpdf.go:746-754 and fpdf.go:681-687 *)
  Definition run_footer (r : runner) (last : bool) (s : st) : option st :=
    let s := on_hook (sh_inf true) s in
    match
      match h_foot (t_hook s), h_footl (t_hook s) with
      | Some p, _ => call_hook r p (log (EvFooter (pageno s) None) s)
      | None, Some p => call_hook r (p last) (log (EvFooter (pageno s) (Some last)) s)
      | None, None => Some s
      end
    with
    | None => None
    | Some s => Some (on_hook (sh_inf false) s)
    end.

  (** the header, fpdf.go:795-803 *)
  Definition run_header (r : runner) (s : st) : option st :=
    match h_head (t_hook s) with
    | None => Some s
    | Some p =>
        match call_hook r p (log (EvHeader (pageno s)) (on_hook (sh_inh true) s)) with
        | None => None
        | Some s =>
            let s := on_hook (sh_inh false) s in
            Some (if h_home (t_hook s) then set_home s else s)
        end
    end.

  (** fpdf.go:760-771: line style at the top of the new page *)
  Definition open_lines (v : saved) (s : st) : st :=
    let s := emit [Cap (g_cap (t_gfx s)); Join (g_join (t_gfx s)); Width (v_lw v *f x_k (t_geo s))] (on_gfx (sg_lw (v_lw v)) s) in
    match g_dash (t_gfx s) with [] => s | l => emit [Dash l (g_phase (t_gfx s))] s end.
  (** fpdf.go:773-778 and fpdf.go:809-814; AddPageFormat returns if [stops] *)
  Definition put_font (v : saved) (s : st) : st :=
    match v_fam v with [] => s | _ => set_font (v_fam v) (v_style v) (v_pt v) s end.
  Definition stops (v : saved) (s : st) : bool := (match v_fam v with [] => false | _ => true end) && failed s.
  (** fpdf.go:780-789 *)
  Definition open_draw (v : saved) (s : st) : st :=
    let s := on_gfx (sg_draw (v_draw v)) s in
    if beqb (c_str (v_draw v)) (bs "0 G") then s else emit [Stroke (c_str (v_draw v))] s.
  Definition open_fill (v : saved) (s : st) : st :=
    let s := on_gfx (sg_fill (v_fill v)) s in
    if beqb (c_str (v_fill v)) (bs "0 g") then s else emit [Fill (c_str (v_fill v))] s.
  Definition put_text (v : saved) (s : st) : st :=
    on_gfx (fun g => sg_flag (v_flag v) (sg_text (v_text v) g)) s.
  (** The second component tells whether AddPageFormat goes on. *)
  Definition open_page (v : saved) (s : st) : st * bool :=
    let s := put_font v (open_lines v s) in
    if stops v s then (s, false) else (put_text v (open_fill v (open_draw v s)), true).

  (** fpdf.go:804-808, fpdf.go:815-822: what the header changed is put back *)
  Definition back_width (v : saved) (s : st) : st :=
    if neq A (g_lw (t_gfx s)) (v_lw v) then s
    else emit [Width (v_lw v *f x_k (t_geo s))] (on_gfx (sg_lw (v_lw v)) s).
  Definition back_draw (v : saved) (s : st) : st :=
    if beqb (c_str (g_draw (t_gfx s))) (c_str (v_draw v)) then s
    else emit [Stroke (c_str (v_draw v))] (on_gfx (sg_draw (v_draw v)) s).
  Definition back_fill (v : saved) (s : st) : st :=
    if beqb (c_str (g_fill (t_gfx s))) (c_str (v_fill v)) then s
    else emit [Fill (c_str (v_fill v))] (on_gfx (sg_fill (v_fill v)) s).
  Definition put_back (v : saved) (s : st) : st :=
    let s := put_font v (back_width v s) in
    if stops v s then s else put_text v (back_fill v (back_draw v s)).

  (** fpdf.go:745-757: leave the current page *)
  Definition leave_page (r : runner) (s : st) : option st :=
    if on_page s then option_map end_page (run_footer r false s) else Some s.

  (** back to the last page, fpdf.go:723-729: only SetPage makes a difference *)
  Definition start_page (s : st) : st :=
    let last := (List.length (l_pages (t_life s)) - 1)%nat in
    let s := if Nat.eqb (pageno s) last then s else on_life (sl_page last) (turn s) in
    if l_state (t_life s) =? 0 then on_life (sl_state 1) s else s.

  (** AddPageFormat fpdf.go:719-822 *)
  Definition add_page_format (r : runner) (o : bytes) (w h : num A) (s : st) : option st :=
    if failed s then Some s else
    let s := start_page s in
    let v := save_state s in
    match leave_page r s with
    | None => None
    | Some s =>
        let s := begin_page o w h s in
        match open_page v s with
        | (s, false) => Some s
        | (s, true) => option_map (put_back v) (run_header r s)
        end
    end.

  (** AddPage fpdf.go:838-845 *)
  Definition add_page (r : runner) (s : st) : option st :=
    if failed s then Some s else add_page_format r (x_defo (t_geo s)) (x_defw (t_geo s)) (x_defh (t_geo s)) s.

  (** what enddoc writes to f.buffer, and the error it stops with.  The real
      thing is DocModel; here it is any function of the state.  None: it
      panics. *)
  Variable asm : st -> option (bytes * option error).

  (** enddoc fpdf.go:4774-4832 *)
  Definition end_doc (s : st) : option st :=
    if failed s then Some s else
    match asm s with
    | None => None
    | Some (b, e) =>
        let s := on_life (fun x => sl_buf (l_buf x ++ [CDoc b]) x) s in
        Some (match e with Some e => force_err e s | None => on_life (sl_state 3) s end)
    end.

  (** Close fpdf.go:660-695 *)
  Definition close (r : runner) (s : st) : option st :=
    let s := if failed s then s
             else if n_clip (t_nest s) >? 0 then force_err EClipOpen s
             else if n_tran (t_nest s) >? 0 then force_err ETransOpen s else s in
    if failed s then Some s else
    if l_state (t_life s) =? 3 then Some s else
    match (if on_page s then Some s else add_page r s) with
    | None => None
    | Some s1 =>
        if negb (on_page s) && failed s1 then Some s1 else
        match run_footer r true s1 with
        | None => None
        | Some s2 => end_doc (end_page s2)
        end
    end.

  (** f.buffer.WriteTo(w), fpdf.go:3471-3474.  A failing writer takes m entries
      of the buffer (the real one, any number of bytes). *)
  Definition write_to (w : writer) (s : st) : st :=
    match w with
    | Full => on_life (sl_buf []) (log (EvWrote (l_buf (t_life s))) s)
    | Short m e => force_err (EWrite e) (on_life (fun x => sl_buf (skipn m (l_buf x)) x) (log (EvWrote (firstn m (l_buf (t_life s)))) s))
    end.

  (** Output fpdf.go:3463-3476 *)
  Definition output (r : runner) (w : writer) (s : st) : option st :=
    if failed s then Some s else
    option_map (write_to w) (if l_state (t_life s) <? 3 then close r s else Some s).

  (** OutputFileAndClose fpdf.go:3446-3457; [create] is the error of os.Create *)
  Definition output_file (r : runner) (create : option bytes) (w : writer) (s : st) : option st :=
    if failed s then Some s else
    match create with
    | Some e => Some (force_err (ECreate e) s)
    | None => output r w s
    end.

  (** acceptPageBreak: the default, fpdf.go:193-195, or the registered function *)
  Definition accept_break (r : runner) (s : st) : option (bool * st) :=
    match h_accept (t_hook s) with
    | None => Some (x_auto (t_geo s), s)
    | Some p => r p s
    end.

  (** the condition of fpdf.go:2326 and fpdf.go:3043, evaluated left to right *)
  Definition break_wanted (r : runner) (h : num A) (s : st) : option (bool * st) :=
    let g := t_geo s in
    if nlt A (x_trig g) (x_y g +f h) && negb (h_inh (t_hook s)) && negb (h_inf (t_hook s)) then accept_break r s
    else Some (false, s).

  (** fpdf.go:2326-2344: the automatic page break of CellFormat; the second
      component tells whether CellFormat goes on *)
  Definition cell_break (r : runner) (h : num A) (s : st) : option (st * bool) :=
    match break_wanted r h s with
    | None => None
    | Some (false, s) => Some (s, true)
    | Some (true, s) =>
        let x := x_x (t_geo s) in
        let ws := x_ws (t_geo s) in
        let k := x_k (t_geo s) in
        let pos := nlt A (Z# 0) ws in
        let s := if pos then emit [Tw (Z# 0)] (on_geo (sx_ws (Z# 0)) s) else s in
        match add_page_format r (x_curo (t_geo s)) (x_curw (t_geo s)) (x_curh (t_geo s)) s with
        | None => None
        | Some s =>
            if failed s then Some (s, false) else
            let s := on_geo (sx_x x) s in
            Some (if pos then emit [Tw (ws *f k)] (on_geo (sx_ws ws) s) else s, true)
        end
    end.

  (** GetStringWidth fpdf.go:947-953 *)
  Definition str_width (txt : bytes) (s : st) : num A :=
    if failed s then Z# 0 else Z# (fd_width (f_cur (t_fnt s)) txt) *f f_size (t_fnt s) /f Z# 1000.

  (** the border and background of a cell, fpdf.go:2345-2390 *)
  Definition cell_box (w h : num A) (border : bytes) (fill : bool) (s : st) : list op :=
    let g := t_geo s in let k := x_k g in
    let x := x_x g in let y := x_y g in
    let one := beqb border (bs "1") in
    (if fill || one then
       [Paint (if fill then (if one then bs "re B" else bs "re f") else bs "re S")
              [x *f k; (x_h g -f y) *f k; w *f k; nopp A h *f k]]
     else []) ++
    (if negb (beqb border []) && negb one then
       let left := x *f k in let top := (x_h g -f y) *f k in
       let right := (x +f w) *f k in let bottom := (x_h g -f (y +f h)) *f k in
       (if has 76 border then [Paint (bs "l S") [left; top; left; bottom]] else []) ++
       (if has 84 border then [Paint (bs "l S") [left; top; right; top]] else []) ++
       (if has 82 border then [Paint (bs "l S") [right; top; right; bottom]] else []) ++
       (if has 66 border then [Paint (bs "l S") [left; bottom; right; bottom]] else [])
     else []).

  (** the text of a cell, fpdf.go:2391-2475.  The TJ array of a justified line
      in a UTF-8 font and the underline and strike-out rectangles are not
      spelled out: they follow the text inside the same [Show]. *)
  Definition cell_dx (w : num A) (txt align : bytes) (s : st) : num A :=
    let g := t_geo s in
    if has 82 align then w -f x_cm g -f str_width txt s
    else if has 67 align then (w -f str_width txt s) /f Z# 2
    else x_cm g.
  Definition cell_dy (h : num A) (align : bytes) (s : st) : num A :=
    let fs := f_size (t_fnt s) in
    let d := f_cur (t_fnt s) in
    if has 84 align then (fs -f h) /f Z# 2
    else if has 66 align then (h -f fs) /f Z# 2
    else if has 65 align then
      let descent := if fd_desc d =? 0 then nopp A (Z# 19 /f Z# 100) *f fs
                     else Z# (fd_desc d) *f fs /f Z# (fd_asc d - fd_desc d) in
      (h -f fs) /f Z# 2 -f descent
    else Z# 0.
  Definition cell_text (w h : num A) (txt align : bytes) (s : st) : list op :=
    let g := t_geo s in let k := x_k g in
    let fs := f_size (t_fnt s) in
    let show := [Show ((x_x g +f cell_dx w txt align s) *f k)
                      ((x_h g -f (x_y g +f cell_dy h align s +f (Z# 5 /f Z# 10) *f h +f (Z# 3 /f Z# 10) *f fs)) *f k) txt] in
    if g_flag (t_gfx s) then Save :: Fill (c_str (g_text (t_gfx s))) :: show ++ [Restore] else show.

  (** CellFormat fpdf.go:2312-2497 after the page break *)
  Definition cell_body (w h : num A) (txt border : bytes) (ln : Z) (align : bytes) (fill : bool) (l : Z) (u : bytes) (s : st) : st :=
    let g := t_geo s in
    let w := if neq A w (Z# 0) then x_w g -f x_rm g -f x_x g else w in
    let ops := cell_box w h border fill s ++ (match txt with [] => [] | _ => cell_text w h txt align s end) in
    let s := match txt with
             | [] => s
             | _ => if (l >? 0) || negb (beqb u []) then
                      new_link (x_x g +f cell_dx w txt align s)
                        (x_y g +f cell_dy h align s +f (Z# 5 /f Z# 10) *f h -f (Z# 5 /f Z# 10) *f f_size (t_fnt s))
                        (str_width txt s) (f_size (t_fnt s)) l u s
                    else s
             end in
    let s := match ops with [] => s | _ => emit ops s end in
    let s := on_geo (sx_lasth h) s in
    if ln >? 0 then
      on_geo (fun g => let g := sx_y (x_y g +f h) g in if ln =? 1 then sx_x (x_lm g) g else g) s
    else on_geo (fun g => sx_x (x_x g +f w) g) s.

  Definition cell_format (r : runner) (w h : num A) (txt border : bytes) (ln : Z) (align : bytes) (fill : bool) (l : Z) (u : bytes) (s : st) : option st :=
    if failed s then Some s else
    if beqb (fd_name (f_cur (t_fnt s))) [] then Some (force_err ENoFont s) else
    let border := upper border in
    match cell_break r h s with
    | None => None
    | Some (s, false) => Some s
    | Some (s, true) => Some (cell_body w h txt border ln align fill l u s)
    end.

  (** the size of an image, fpdf.go:3010-3038 *)
  Definition image_size (iw ih dpi k w h : num A) : num A * num A :=
    let '(w, h) := if neq A w (Z# 0) && neq A h (Z# 0) then (nopp A (Z# 96), nopp A (Z# 96)) else (w, h) in
    let w := if neq A w (nopp A (Z# 1)) then nopp A dpi else w in
    let h := if neq A h (nopp A (Z# 1)) then nopp A dpi else h in
    let w := if nlt A w (Z# 0) then nopp A iw *f Z# 72 /f w /f k else w in
    let h := if nlt A h (Z# 0) then nopp A ih *f Z# 72 /f h /f k else h in
    let w := if neq A w (Z# 0) then h *f iw /f ih else w in
    let h := if neq A h (Z# 0) then w *f ih /f iw else h in
    (w, h).

  (** imageOut fpdf.go:3008-3063 *)
  Definition image_place (id : bytes) (x y w h : num A) (negx : bool) (l : Z) (u : bytes) (s : st) : st :=
    let g := t_geo s in let k := x_k g in
    let x := if negx then x else if nlt A x (Z# 0) then x_x g else x in
    let s := emit [Save; Cm (w *f k) (Z# 0) (Z# 0) (h *f k) (x *f k) ((x_h g -f (y +f h)) *f k);
                   Paint (bs "/I" ++ id ++ bs " Do") []; Restore] s in
    if (l >? 0) || negb (beqb u []) then new_link x y w h l u s else s.
  Definition image_out (r : runner) (iw ih dpi : num A) (id : bytes) (x y w h : num A) (negx flow : bool) (l : Z) (u : bytes) (s : st) : option st :=
    let '(w, h) := image_size iw ih dpi (x_k (t_geo s)) w h in
    if flow then
      match break_wanted r h s with
      | None => None
      | Some (b, s) =>
          match
            (if b then
               let x2 := x_x (t_geo s) in
               match add_page_format r (x_curo (t_geo s)) (x_curw (t_geo s)) (x_curh (t_geo s)) s with
               | None => None
               | Some s => if failed s then Some (s, false) else Some (on_geo (sx_x x2) s, true)
               end
             else Some (s, true))
          with
          | None => None
          | Some (s, false) => Some s
          | Some (s, true) =>
              let y := x_y (t_geo s) in
              Some (image_place id x y w h negx l u (on_geo (fun g => sx_y (x_y g +f h) g) s))
          end
      end
    else Some (image_place id x y w h negx l u s).

  (** Text fpdf.go:2208-2233 (with the simplifications of [cell_text]) *)
  Definition text_at (x y : num A) (txt : bytes) (s : st) : st :=
    let g := t_geo s in let k := x_k g in
    let show := [Show (x *f k) ((x_h g -f y) *f k) txt] in
    emit (if g_flag (t_gfx s) then Save :: Fill (c_str (g_text (t_gfx s))) :: show ++ [Restore] else show) s.

  (** ClipRect fpdf.go:1453-1456 and the other clipping calls: the counter, q,
      and a clipping path *)
  Definition clip_begin (what : bytes) (args : list (num A)) (s : st) : st :=
    emit [Save; Paint what args] (on_nest (fun n => sn_clip (n_clip n + 1) n) s).
  (** ClipEnd fpdf.go:1612-1621 *)
  Definition clip_end (s : st) : st :=
    if failed s then s else
    if n_clip (t_nest s) >? 0 then emit [Restore] (on_nest (fun n => sn_clip (n_clip n - 1) n) s)
    else force_err EClipSeq s.

  (** Transform fpdftrans.go:194-201 *)
  Definition transform (a b c d e f : num A) (s : st) : st :=
    if n_tran (t_nest s) >? 0 then emit [Cm a b c d e f] s else fail ETransInactive s.
  (** TransformBegin fpdftrans.go:23-26, TransformEnd fpdftrans.go:206-213 *)
  Definition transform_begin (s : st) : st := emit [Save] (on_nest (fun n => sn_tran (n_tran n + 1) n) s).
  Definition transform_end (s : st) : st :=
    if n_tran (t_nest s) >? 0 then emit [Restore] (on_nest (fun n => sn_tran (n_tran n - 1) n) s)
    else force_err ETransSeq s.
  (** TransformScale fpdftrans.go:59-72 *)
  Definition transform_scale (sw sh x y : num A) (s : st) : st :=
    if neq A sw (Z# 0) || neq A sh (Z# 0) then force_err EScale s else
    let g := t_geo s in
    let y := (x_h g -f y) *f x_k g in let x := x *f x_k g in
    let sw := sw /f Z# 100 in let sh := sh /f Z# 100 in
    transform sw (Z# 0) (Z# 0) sh (x *f (Z# 1 -f sw)) (y *f (Z# 1 -f sh)) s.
  (** TransformRotate fpdftrans.go:136-151 *)
  Definition transform_rotate (ang x y : num A) (s : st) : st :=
    let g := t_geo s in
    let y := (x_h g -f y) *f x_k g in let x := x *f x_k g in
    let ang := ang *f npi A /f Z# 180 in
    let a := ncos A ang in let b := nsin A ang in
    transform a b (nopp A b) a (x +f b *f y -f a *f x) (y -f a *f y -f b *f x) s.
  (** TransformSkew fpdftrans.go:174-190 *)
  Definition nle' (a b : num A) : bool := nlt A a b || neq A a b.
  Definition transform_skew (ax ay x y : num A) (s : st) : st :=
    if nle' ax (Z# (-90)) || nle' (Z# 90) ax || nle' ay (Z# (-90)) || nle' (Z# 90) ay then force_err ESkew s else
    let g := t_geo s in
    let y := (x_h g -f y) *f x_k g in let x := x *f x_k g in
    let b := ntan A (ay *f npi A /f Z# 180) in let c := ntan A (ax *f npi A /f Z# 180) in
    transform (Z# 1) b c (Z# 1) (nopp A c *f y) (nopp A b *f x) s.
  (** TransformTranslate fpdftrans.go:127-129 *)
  Definition transform_translate (tx ty : num A) (s : st) : st :=
    let k := x_k (t_geo s) in
    transform (Z# 1) (Z# 0) (Z# 0) (Z# 1) (tx *f k) (nopp A ty *f k) s.

  (** AddLink fpdf.go:2146-2149, SetLink fpdf.go:2152-2160 (None: index out of range) *)
  Definition add_link (s : st) : st := st_links (t_links s ++ [(0, Z# 0)]) s.
  Definition set_link (l : Z) (y : num A) (p : Z) (s : st) : option st :=
    let y := if neq A y (nopp A (Z# 1)) then x_y (t_geo s) else y in
    let p := if p =? -1 then Z.of_nat (pageno s) else p in
    if (0 <=? l) && (l <? Z.of_nat (List.length (t_links s))) then
      Some (st_links (upd (Z.to_nat l) (fun _ => (p, y)) (t_links s)) s)
    else None.

  (** MoveTo fpdf.go:4840-4844, LineTo fpdf.go:4850-4855 *)
  Definition move_to (what : bytes) (x y : num A) (s : st) : st :=
    let g := t_geo s in
    on_geo (fun g => sx_y y (sx_x x g)) (emit [Paint what [x *f x_k g; (x_h g -f y) *f x_k g]] s).

  (** SetPageBoxRec fpdf.go:355-389: only the check of the box name *)
  Definition box_names : list bytes :=
    [bs "trim"; bs "trimbox"; bs "crop"; bs "cropbox"; bs "bleed"; bs "bleedbox"; bs "art"; bs "artbox"].

  Definition cm_of (m : list (num A)) : op :=
    match m with
    | [a; b; c; d; e; f] => Cm a b c d e f
    | _ => Cm (Z# 1) (Z# 0) (Z# 0) (Z# 1) (Z# 0) (Z# 0)
    end.

  (** One call.  None: it does not return (a registered function does not
      return, or Go panics). *)
  Definition step (r : runner) (c : call) (s : st) : option st :=
    match c with
    | SetError e => Some (fail e s)
    | ClearError => Some (on_life (sl_err None) s)            (* fpdf.go:260-262 *)
    | AddPage => add_page r s
    | AddPageFormat o w h => add_page_format r o w h s
    | SetPage k =>                                            (* fpdf.go:400-404 *)
        Some (if (0 <? k) && (k <? Z.of_nat (List.length (l_pages (t_life s)))) then on_life (sl_page (Z.to_nat k)) (turn s) else s)
    | Close => close r s
    | Output w => output r w s
    | OutputFileAndClose c w => output_file r c w s
    | SetHeaderFunc p => Some (on_hook (sh_head p) s)         (* fpdf.go:450-452 *)
    | SetHeaderFuncMode p b => Some (on_hook (fun h => sh_home b (sh_head p h)) s) (* fpdf.go:432-435 *)
    | SetFooterFunc p => Some (on_hook (fun h => sh_footl None (sh_foot p h)) s)   (* fpdf.go:463-466 *)
    | SetFooterFuncLpi p => Some (on_hook (fun h => sh_foot None (sh_footl p h)) s) (* fpdf.go:475-478 *)
    | SetAcceptPageBreakFunc p => Some (on_hook (sh_accept (Some p)) s)            (* fpdf.go:2269-2271 *)
    | SetMargins l t rt =>                                    (* fpdf.go:318-325 *)
        Some (on_geo (fun g => sx_rm (if nlt A rt (Z# 0) then l else rt) (sx_tm t (sx_lm l g))) s)
    | SetLeftMargin m =>                                      (* fpdf.go:330-335 *)
        Some (on_geo (fun g => let g := sx_lm m g in if on_page s && nlt A (x_x g) m then sx_x m g else g) s)
    | SetTopMargin m => Some (on_geo (sx_tm m) s)             (* fpdf.go:482-484 *)
    | SetRightMargin m => Some (on_geo (sx_rm m) s)           (* fpdf.go:488-490 *)
    | SetCellMargin m => Some (on_geo (sx_cm m) s)            (* fpdf.go:347-349 *)
    | SetAutoPageBreak b m =>                                 (* fpdf.go:505-509 *)
        Some (on_geo (fun g => sx_trig (x_h g -f m) (sx_bm m (sx_auto b g))) s)
    | SetX x => Some (set_x x s)
    | SetY y => Some (set_y y s)
    | SetXY x y => Some (set_xy x y s)
    | SetHomeXY => Some (set_home s)
    | Ln h => Some (line_break h s)
    | SetDrawColor a b c => Some (set_draw_color a b c s)
    | SetFillColor a b c => Some (set_fill_color a b c s)
    | SetTextColor a b c => Some (set_text_color a b c s)
    | AddSpotColor nm c m y k => Some (add_spot nm c m y k s)
    | SetDrawSpotColor nm t => Some (set_draw_spot nm t s)
    | SetFillSpotColor nm t => Some (set_fill_spot nm t s)
    | SetTextSpotColor nm t => Some (set_text_spot nm t s)
    | SetLineWidth w => Some (set_line_width w s)
    | SetLineCapStyle b => Some (set_cap b s)
    | SetLineJoinStyle b => Some (set_join b s)
    | SetDashPattern l ph => Some (set_dash l ph s)
    | SetAlpha a m => Some (set_alpha a m s)
    | AddFontDef fam sty x => Some (add_font fam sty x s)
    | SetFont fam sty size => Some (set_font fam sty size s)
    | SetFontStyle sty => Some (set_font (f_fam (t_fnt s)) sty (f_pt (t_fnt s)) s) (* fpdf.go:2111-2113 *)
    | SetFontSize size => Some (set_font_size size s)
    | SetFontUnitSize size => Some (set_font_unit_size size s)
    | SetWordSpacing v => Some (emit [Tw (v *f x_k (t_geo s))] s)                  (* fpdf.go:2237-2239 *)
    | JustifyWs v => Some (emit [Tw (v *f x_k (t_geo s))] (on_geo (sx_ws v) s))    (* MultiCell fpdf.go:2736-2743, and 2678-2681 for v = 0 *)
    | SetTextRenderingMode n => Some (if (0 <=? n) && (n <=? 7) then emit [Tr n] s else s) (* fpdf.go:2252-2256 *)
    | Draw what args => Some (emit [Paint what args] s)       (* Line fpdf.go:1085-1087, Rect fpdf.go:1121, Polygon, Curve, ... *)
    | DrawRotated m what args => Some (emit [Save; cm_of m; Paint what args; Restore] s) (* arc fpdf.go:4932-4998 with a rotation *)
    | MoveTo x y => Some (move_to (bs "m") x y s)
    | LineTo x y => Some (move_to (bs "l") x y s)
    | RoundedRectExt args sty => Some (emit [Save; Paint sty args] s)              (* fpdf.go:1157-1160 with roundedRectPath fpdf.go:1504-1534 *)
    | Gradient args =>                                        (* LinearGradient fpdf.go:1414-1418, RadialGradient fpdf.go:1438-1442 *)
        Some (emit [Save; Paint (bs "re W n") args; cm_of args; Paint (bs "sh") args; Restore] s)
    | UseTemplate id m =>                                     (* UseTemplateScaled template.go:69-112 *)
        Some (if on_page s then emit [Save; cm_of m; Paint (bs "/TPL" ++ id ++ bs " Do") []; Restore] s
              else fail (EUser (bs "cannot use a template without first adding a page")) s)
    | Text x y txt => Some (text_at x y txt s)
    | ClipBegin what args => Some (clip_begin what args s)
    | ClipEnd => Some (clip_end s)
    | TransformBegin => Some (transform_begin s)
    | TransformScale a b x y => Some (transform_scale a b x y s)
    | TransformRotate a x y => Some (transform_rotate a x y s)
    | TransformSkew a b x y => Some (transform_skew a b x y s)
    | TransformTranslate x y => Some (transform_translate x y s)
    | Transform a b c d e f => Some (transform a b c d e f s)
    | TransformEnd => Some (transform_end s)
    | AddLayer nm v => Some (add_layer nm v s)
    | BeginLayer id => Some (begin_layer id s)
    | EndLayer => Some (end_layer s)
    | AddLink => Some (add_link s)
    | SetLink l y p => set_link l y p s
    | Link x y w h l => Some (new_link x y w h l [] s)        (* fpdf.go:2177-2179 *)
    | LinkString x y w h u => Some (new_link x y w h 0 u s)   (* fpdf.go:2185-2187 *)
    | SetPageBoxRec t => Some (if List.existsb (beqb (lower t)) box_names then s else force_err (EPageBox t) s)
    | CellFormat w h txt border ln align fill l u => cell_format r w h txt border ln align fill l u s
    | ImageOut iw ih dpi id x y w h negx flow l u => image_out r iw ih dpi id x y w h negx flow l u s
    | RawWriteStr b => Some (emit [Raw b] s)                  (* fpdf.go:3781-3783 *)
    end.

  (** what the getters return in a state *)
  Definition observe (s : st) : obs :=
    mk_obs (errof s) (pageno s) (List.length (l_pages (t_life s)) - 1)%nat (t_gfx s) (t_fnt s) (t_geo s)
           (List.length (n_layers (t_nest s))) (List.length (t_links s)).

  (** A program run with a given meaning of a single call. *)
  Fixpoint run_with (ex : call -> st -> option st) (p : prog) (s : st) : option (bool * st) :=
    match p with
    | Done b => Some (b, s)
    | Step c k => match ex c s with None => None | Some s => run_with ex (k (observe s)) s end
    end.

  (** A call, with registered functions nested at most [n] deep (a header that
      adds a page, say, calls itself). *)
  Fixpoint exec (n : nat) (c : call) (s : st) : option st :=
    match n with
    | O => None
    | S n => step (run_with (exec n)) c s
    end.
  Definition run (n : nat) : prog -> st -> option (bool * st) := run_with (exec n).

  (** fpdfNew fpdf.go:60-218, for a scale factor k, a default orientation, page size
      and margin.  SetFontSize(12) runs before f.k is set, hence the division by zero. *)
  Definition black (gray : bytes) : color := rgb 0 0 0 gray gray.
  Definition no_font : fontdef := mk_fontdef [] [] false (fun _ => 0) 0 0.
  Definition init (k : num A) (o : bytes) (w h margin : num A) : st :=
    let '(pw, ph) := if beqb o (bs "P") then (w, h) else (h, w) in
    mk_st
      (mk_life None 0 0 [mk_page [] [] None] [])
      (mk_gfx (Z# 567 /f Z# 1000 /f k) 0 0 [] (Z# 0) (rgb 0 0 0 (bs "G") (bs "RG")) (rgb 0 0 0 (bs "g") (bs "rg")) (rgb 0 0 0 (bs "g") (bs "rg")) false
              (Z# 1) (bs "Normal") [] [])
      (mk_fnt [] [] false false (Z# 12) (Z# 12 /f Z# 0) no_font [])
      (mk_geo k (Z# 0) (Z# 0) pw ph (pw *f k) (ph *f k) margin margin margin (Z# 2 *f margin) (margin /f Z# 10)
              (ph -f Z# 2 *f margin) true (Z# 0) (Z# 0) o w h o w h)
      (mk_nest 0 0 None [])
      (mk_hooks None false None None None false false)
      [(0, Z# 0)] [].
End Api.

Arguments op A : clear implicits.
Arguments st A : clear implicits.
Arguments call A : clear implicits.
Arguments prog A : clear implicits.
Arguments obs A : clear implicits.
Arguments fontdef : clear implicits.
