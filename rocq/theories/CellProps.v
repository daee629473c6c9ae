(** C72: what a cell draws. *)
From Coq Require Import Reals Lra.
From Verif Require Import Base TextModel TextSpec TextProofs LineModel LineSpec LineProofs LineProps CellModel CellSpec CellProofs.
From Coq Require Import String.
Open Scope Z_scope.
Notation length := List.length.

(** a document in which a cell can be set: positive scale and font size, the
    size in points agreeing with the size in user units (SetFontSize) *)
Definition ready (e : cenv) : Prop :=
  (0 < c_k e)%R /\ (0 < c_fs e)%R /\ c_pt e = (c_fs e * c_k e)%R.

(** right and bottom side of the cell: a zero width reaches to the right margin *)
Definition cell_right (e : cenv) (w r : R) : Prop :=
  (w <> 0 -> r = c_x e + w)%R /\ (w = 0 -> r = c_pw e - c_rm e)%R.

(** what is to be seen of a cell with text [t]: nothing for a zero height;
    otherwise the frame, the text where the alignment wants it, underline and
    strike-out exactly as long as the text, and the clickable area of a link
    exactly over the text *)
Definition cell_ok (e : cenv) (tw w h : R) (t : list Z) (border align : bytes) (fill : bool) (link : Z) (url : bytes) (d : drawn) : Prop :=
  (h = 0%R -> d_marks d = []) /\
  (h <> 0%R -> exists r x0 x1 base, cell_right e w r /\
     view (c_k e) (c_ph e) (viewer_font e) false tw (d_marks d) =
       Some (wanted_frame (c_x e) (c_y e) r (c_y e + h) border fill ++
             InkText (shown e t) x0 x1 base (c_flag e) :: deco_inks e x0 x1 base) /\
     wanted_across (c_x e) r (c_cm e) align x0 x1 /\
     wanted_down (c_y e) (c_y e + h) (c_fs e) align base /\
     wanted_baseline (c_y e + h) align base /\
     d_link d = (if link_wanted link url then Some (x0, em_top (c_fs e) base, (x1 - x0)%R, c_fs e) else None)).

(** C72, full statement (false for the code): for every document, word spacing
    in force and cell *)
Definition C72_statement : Prop :=
  forall e tw w h txt t border ln align fill link url d,
    ready e -> typed e txt t -> t <> [] ->
    cell_format e w h txt border ln align fill link url = Ret d ->
    cell_ok e tw w h t border align fill link url d.

Lemma cell_right_w e w : cell_right e w (c_x e + cell_w e w).
Proof. unfold cell_right, cell_w. destruct (Req_EM_T w 0); split; intros; try contradiction; try reflexivity. lra. Qed.

Lemma across e w t align : let x0 := (c_x e + dx_of e w t align)%R in
  wanted_across (c_x e) (c_x e + w) (c_cm e) align x0 (x0 + nat_width e t).
Proof.
  cbv zeta. unfold wanted_across, dx_of. rewrite <- !has_In.
  destruct (has 82 align); [|destruct (has 67 align)]; (split; [|split]); intros; try tauto; try congruence; lra.
Qed.
Lemma down e h align : wanted_down (c_y e) (c_y e + h) (c_fs e) align (base_of e h align).
Proof.
  unfold wanted_down, base_of, cell_dy, em_top, em_bottom. rewrite <- !has_In.
  destruct (has 84 align); [|destruct (has 66 align); [|destruct (has 65 align)]]; (split; [|split]); intros; try tauto; try congruence; lra.
Qed.

(** C72, what holds: without word spacing, and not with alignment J in a UTF-8
    font, the cell is never refused and everything is as wanted whatever the
    height, except that with "A" the baseline is off by a fifth of the size plus
    the descent of the font (1% of the size for a standard font); every
    character shown is recorded for embedding *)
Definition descent_of (e : cenv) : R :=
  if c_desc e =? 0 then (- (19 / 100) * c_fs e)%R else (IZR (c_desc e) / IZR (c_asc e - c_desc e) * c_fs e)%R.

Theorem C72_cell_partial :
  forall e tw w h txt t border ln align fill link url,
    ready e -> typed e txt t -> t <> [] ->
    c_ws e = 0%R -> (tw = 0%R \/ c_utf8 e = true) -> (c_utf8 e = true -> align <> bs "J") ->
    exists d r x0 x1 base,
      cell_format e w h txt border ln align fill link url = Ret d /\
      cell_right e w r /\
      view (c_k e) (c_ph e) (viewer_font e) false tw (d_marks d) =
        Some (wanted_frame (c_x e) (c_y e) r (c_y e + h) border fill ++
              InkText (shown e t) x0 x1 base (c_flag e) :: deco_inks e x0 x1 base) /\
      wanted_across (c_x e) r (c_cm e) align x0 x1 /\
      wanted_down (c_y e) (c_y e + h) (c_fs e) align base /\
      (~ In 84 align -> ~ In 66 align -> In 65 align -> (c_y e + h - base = 2 / 10 * c_fs e + descent_of e)%R) /\
      d_link d = (if link_wanted link url then Some (x0, em_top (c_fs e) base, (x1 - x0)%R, c_fs e) else None) /\
      (c_utf8 e = true -> forall c, In c t -> In c (d_used d)).
Proof.
  intros e tw w h txt t border ln align fill link url (Hk & Hfs & Hpt) Ht Hn Hws Htw Hj.
  assert (Hjf : justifies e align = false).
  { unfold justifies. destruct (Req_EM_T (c_ws e) 0); [|contradiction]. destruct (c_utf8 e); [|apply andb_false_r].
    rewrite andb_true_r. apply beqb_neq. now apply Hj. }
  destruct (cell_shows e Hk Hpt tw w h txt t border ln align fill link url Ht Hn Hjf) as (d & Ed & Ev & El & Eu).
  set (x0 := (c_x e + dx_of e (cell_w e w) t align)%R) in *.
  assert (Ea : (x0 + advance (c_k e) (viewer_font e) tw (shown e t) = x0 + nat_width e t)%R).
  { rewrite advance_shown. destruct Htw as [->| ->]; destruct (c_utf8 e); unfold Rdiv; rewrite ?Rmult_0_l; lra. }
  rewrite Ea in Ev. replace (nat_width e t + c_ws e * IZR (blanks t))%R with (nat_width e t) in Ev by (rewrite Hws; lra).
  exists d, (c_x e + cell_w e w)%R, x0, (x0 + nat_width e t)%R, (base_of e h align).
  split; [exact Ed|]. split; [apply cell_right_w|]. split; [exact Ev|]. split; [apply across|]. split; [apply down|].
  split; [|split].
  - unfold base_of, cell_dy, descent_of, cell_descent. rewrite <- !has_In. intros H1 H2 H3. apply not_true_is_false in H1, H2.
    rewrite H1, H2, H3. destruct (c_desc e =? 0); unfold Rdiv; lra.
  - rewrite El. destruct (link_wanted link url); [|reflexivity]. do 3 f_equal. lra.
  - intros Hu c Hc. rewrite Eu, Hu. unfold shown. destruct (_ && _); [now apply -> in_rev|exact Hc].
Qed.
Print Assumptions C72_cell_partial.

(** a simple font with the word spacing MultiCell has set (the same in the
    document and in the page): a text that is neither right aligned nor centred
    starts at the margin, and underline and strike-out are exactly as long as it *)
Theorem C72_spaced_partial :
  forall e w h txt t border ln align fill link url,
    ready e -> typed e txt t -> t <> [] -> c_utf8 e = false -> ~ In 82 align -> ~ In 67 align ->
    exists d r x1 base,
      cell_format e w h txt border ln align fill link url = Ret d /\
      cell_right e w r /\
      view (c_k e) (c_ph e) (viewer_font e) false (c_ws e * c_k e) (d_marks d) =
        Some (wanted_frame (c_x e) (c_y e) r (c_y e + h) border fill ++
              InkText t (c_x e + c_cm e) x1 base (c_flag e) :: deco_inks e (c_x e + c_cm e) x1 base) /\
      wanted_down (c_y e) (c_y e + h) (c_fs e) align base.
Proof.
  intros e w h txt t border ln align fill link url (Hk & Hfs & Hpt) Ht Hn Hu Hr Hc.
  assert (Hjf : justifies e align = false) by (unfold justifies; rewrite Hu; apply andb_false_r).
  destruct (cell_shows e Hk Hpt (c_ws e * c_k e) w h txt t border ln align fill link url Ht Hn Hjf) as (d & Ed & Ev & _ & _).
  rewrite <- !has_In in *. apply not_true_is_false in Hr, Hc.
  assert (Hdx : dx_of e (cell_w e w) t align = c_cm e) by (unfold dx_of; now rewrite Hr, Hc).
  rewrite Hdx in Ev. rewrite advance_shown, Hu in Ev. unfold shown in Ev. rewrite Hu in Ev. cbn [andb] in Ev.
  replace (c_ws e * c_k e / c_k e)%R with (c_ws e) in Ev by (field; lra).
  exists d, (c_x e + cell_w e w)%R. eexists. exists (base_of e h align). split; [exact Ed|].
  split; [apply cell_right_w|]. split; [exact Ev|apply down].
Qed.
Print Assumptions C72_spaced_partial.

(** alignment J in a UTF-8 font, in a line with a blank: the whole text is
    shown, from the left margin to within a thousandth of the font size of the
    right one *)
Theorem C72_justified_partial :
  forall e tw w h txt t border ln fill link url,
    ready e -> typed e txt t -> In 32 t -> c_utf8 e = true ->
    exists d r x1 base inks,
      cell_format e w h txt border ln (bs "J") fill link url = Ret d /\
      cell_right e w r /\
      view (c_k e) (c_ph e) (viewer_font e) false tw (d_marks d) =
        Some (wanted_frame (c_x e) (c_y e) r (c_y e + h) border fill ++
              InkText (shown e t) (c_x e + c_cm e) x1 base (c_flag e) :: inks) /\
      (r - c_cm e <= x1 < r - c_cm e + c_fs e / 1000)%R /\
      wanted_down (c_y e) (c_y e + h) (c_fs e) (bs "J") base /\
      (forall c, In c t -> In c (d_used d)).
Proof.
  intros e tw w h txt t border ln fill link url (Hk & Hfs & Hpt) Ht Hb Hu.
  assert (Hn : t <> []) by (intros ->; contradiction).
  assert (Hj : justifies e (bs "J") = true) by (unfold justifies; rewrite Hu; now destruct (Req_EM_T (c_ws e) 0)).
  destruct (cell_justifies e Hk Hpt tw w h txt t border ln (bs "J") fill link url ltac:(lra) Ht Hn Hj) as (d & Ed & Ev & Eu).
  change (dx_of e (cell_w e w) t (bs "J")) with (c_cm e) in Ev.
  assert (Hb0 : blanks t =? 0 = false).
  { unfold blanks. assert (Hf : In 32 (filter (Z.eqb 32) t)) by (apply filter_In; split; [exact Hb|reflexivity]).
    destruct (filter (Z.eqb 32) t); [contradiction|]. cbn [List.length]. lia. }
  rewrite Hb0 in Ev.
  exists d, (c_x e + cell_w e w)%R. eexists. eexists. eexists. split; [exact Ed|]. split; [apply cell_right_w|].
  split; [exact Ev|]. split; [|split].
  - destruct (ceil_spec ((cell_w e w - 2 * c_cm e) * 1000 / c_fs e)) as [H1 H2].
    set (W := IZR (ceil _)) in *.
    assert (Hd : ((cell_w e w - 2 * c_cm e) * 1000 / c_fs e * c_fs e / 1000 = cell_w e w - 2 * c_cm e)%R) by (field; lra).
    assert (Hc : (0 < c_fs e / 1000)%R) by lra. split.
    + apply (Rmult_le_compat_r (c_fs e / 1000)) in H1; [|lra]. unfold Rdiv in *. lra.
    + apply (Rmult_lt_compat_r (c_fs e / 1000)) in H2; [|lra]. unfold Rdiv in *. lra.
  - pose proof (down e h (bs "J")) as Hdn. unfold base_of in Hdn. change (cell_dy e h (bs "J")) with 0%R in Hdn.
    replace (c_y e + 0 + 5 / 10 * h + 3 / 10 * c_fs e)%R with (c_y e + 5 / 10 * h + 3 / 10 * c_fs e)%R in Hdn by lra. exact Hdn.
  - intros c Hc. rewrite Eu. unfold shown. destruct (_ && _); [now apply -> in_rev|exact Hc].
Qed.
Print Assumptions C72_justified_partial.

(** Text: the text starts at the point given (ends there when the document is
    right to left), its baseline is the ordinate given, and the decorations are
    as long as the text *)
Theorem C72_text_partial :
  forall e x y txt t,
    ready e -> typed e txt t -> t <> [] -> (c_utf8 e = true -> c_ws e = 0%R) ->
    exists ms used x0 x1,
      text_at e x y txt = Ret (ms, used) /\
      view (c_k e) (c_ph e) (viewer_font e) false (c_ws e * c_k e) ms =
        Some (InkText (shown e t) x0 x1 y (c_flag e) :: deco_inks e x0 x1 y) /\
      (if c_utf8 e && c_rtl e then x1 = x else x0 = x) /\
      (c_utf8 e = true -> forall c, In c t -> In c used).
Proof.
  intros e x y txt t (Hk & Hfs & Hpt) Ht Hn Hws.
  destruct (text_shows e Hk Hpt (c_ws e * c_k e) x y txt t Ht Hn) as (ms & Em & Ev).
  eexists. eexists. eexists. eexists. split; [exact Em|]. rewrite Ev. split; [|split].
  - rewrite advance_shown. replace (if c_utf8 e then 0 else c_ws e * c_k e / c_k e * IZR (blanks t))%R with (c_ws e * IZR (blanks t))%R.
    + reflexivity.
    + destruct (c_utf8 e); [rewrite Hws by reflexivity; lra|]. field. lra.
  - destruct (c_utf8 e && c_rtl e) eqn:E; [|reflexivity]. apply andb_prop in E as [E _]. rewrite (Hws E). lra.
  - intros -> c Hc. unfold shown. destruct (_ && _); [now apply -> in_rev|exact Hc].
Qed.
Print Assumptions C72_text_partial.

(** ** refutations *)
Definition env1 (utf8font ul : bool) (ws : R) : cenv :=
  {| c_x := 10; c_y := 20; c_pw := 100; c_ph := 200; c_k := 1; c_rm := 10; c_lm := 10; c_cm := 1;
     c_fs := 10; c_pt := 10; c_ws := ws; c_thick := 1; c_up := -100; c_ut := 50; c_asc := 0; c_desc := 0;
     c_ul := ul; c_so := false; c_flag := false; c_utf8 := utf8font; c_rtl := false;
     c_cw := repeat 500 256; c_missing := 0 |}.
Lemma env1_ready u ul ws : ready (env1 u ul ws).
Proof. unfold ready. cbn. lra. Qed.
Lemma env1_typed u ul ws : typed (env1 u ul ws) (bs "ab c") [97; 98; 32; 99].
Proof.
  unfold typed. destruct u; cbn [env1 c_utf8 c_cw].
  - split; [reflexivity|]. split; [repeat constructor; unfold scalar; lia|]. split; [repeat constructor; unfold bmp; lia|].
    rewrite repeat_length. cbn. lia.
  - split; [reflexivity|]. split; [repeat constructor; unfold is_byte; lia|]. split; [cbn; lia|]. split; [cbn; lia|]. apply repeat_length.
Qed.
Lemma env1_width u ul ws : nat_width (env1 u ul ws) [97; 98; 32; 99] = 20%R.
Proof.
  unfold nat_width. cbn [env1 c_fs]. replace (width (v_width (viewer_font (env1 u ul ws))) [97; 98; 32; 99]) with 2000; [lra|].
  destruct u; reflexivity.
Qed.
Lemma env1_k u ul ws : (0 < c_k (env1 u ul ws))%R /\ c_pt (env1 u ul ws) = (c_fs (env1 u ul ws) * c_k (env1 u ul ws))%R.
Proof. cbn. lra. Qed.

(** SetWordSpacing is not known to the alignment: after SetWordSpacing(5) the
    right aligned "ab c" sticks out of the cell *)
Theorem C72_word_spacing_refuted :
  (exists e s w h txt t border ln align fill link url d,
     ready e /\ typed e txt t /\ t <> [] /\ h <> 0%R /\ In 82 align /\
     cell_format e w h txt border ln align fill link url = Ret d /\
     exists x0 x1 base, view (c_k e) (c_ph e) (viewer_font e) false 0 (set_word_spacing e s ++ d_marks d) =
       Some [InkText t x0 x1 base false] /\ (x1 > c_x e + w)%R)
  /\ ~ C72_statement.
Proof.
  pose (e := env1 false false 0). destruct (env1_k false false 0) as [Hk Hpt].
  assert (Hj : justifies e (bs "R") = false) by (unfold justifies; apply andb_false_r).
  destruct (cell_shows e Hk Hpt 5 50 10 _ _ [] 0 (bs "R") false 0 [] (env1_typed false false 0) ltac:(discriminate) Hj) as (d & Ed & Ev & _).
  assert (Hx : dx_of e (cell_w e 50) [97; 98; 32; 99] (bs "R") = 29%R).
  { unfold dx_of. change (has 82 (bs "R")) with true. cbv iota. unfold e. rewrite env1_width. unfold cell_w. destruct (Req_EM_T 50 0); cbn [env1 c_cm]; lra. }
  assert (Ha : advance (c_k e) (viewer_font e) 5 (shown e [97; 98; 32; 99]) = 25%R).
  { rewrite advance_shown. unfold e. rewrite env1_width. change (c_utf8 (env1 false false 0)) with false. change (blanks [97; 98; 32; 99]) with 1. cbn [env1 c_k]. lra. }
  rewrite Hx, Ha in Ev. split.
  - exists e, 5%R, 50%R, 10%R, (bs "ab c"), [97; 98; 32; 99], [], 0, (bs "R"), false, 0, [], d.
    split; [apply env1_ready|]. split; [apply env1_typed|]. split; [discriminate|]. split; [lra|]. split; [now left|]. split; [exact Ed|].
    eexists. eexists. eexists. split.
    + unfold set_word_spacing. cbn [app view]. replace (5 * c_k e)%R with 5%R by (cbn; lra). exact Ev.
    + cbn. lra.
  - intros HS. specialize (HS e 5%R 50%R 10%R (bs "ab c") [97; 98; 32; 99] [] 0 (bs "R") false 0 [] d (env1_ready _ _ _) (env1_typed _ _ _) ltac:(discriminate) Ed).
    destruct HS as [_ HS]. destruct (HS ltac:(lra)) as (r & x0 & x1 & base & Hr & Hv & Hac & _).
    rewrite Ev in Hv. cbn [wanted_frame beqb bs mentions existsb app] in Hv. injection Hv as E0 E1 _.
    destruct Hac as (Hac & _). specialize (Hac (or_introl eq_refl)). destruct Hr as [Hr _]. specialize (Hr ltac:(lra)).
    cbn in *. lra.
Qed.
Print Assumptions C72_word_spacing_refuted.

(** a zero height does not suppress the output *)
Theorem C72_zero_height_refuted :
  exists e w txt t d, ready e /\ typed e txt t /\ t <> [] /\ c_ws e = 0%R /\
    cell_format e w 0 txt (bs "1") 0 (bs "L") true 0 [] = Ret d /\ d_marks d <> [].
Proof.
  pose (e := env1 false false 0). destruct (env1_k false false 0) as [Hk Hpt].
  assert (Hj : justifies e (bs "L") = false) by (unfold justifies; apply andb_false_r).
  destruct (cell_shows e Hk Hpt 0 50 0 _ _ (bs "1") 0 (bs "L") true 0 [] (env1_typed false false 0) ltac:(discriminate) Hj) as (d & Ed & Ev & _).
  exists e, 50%R, (bs "ab c"), [97; 98; 32; 99], d. split; [apply env1_ready|]. split; [apply env1_typed|]. split; [discriminate|].
  split; [reflexivity|]. split; [exact Ed|]. intros E. rewrite E in Ev. cbn [view] in Ev. injection Ev as Ev. discriminate.
Qed.
Print Assumptions C72_zero_height_refuted.

(** alignment "A" in a standard font: the baseline is not on the bottom of the
    cell but one percent of the font size above it *)
Theorem C72_baseline_refuted :
  exists e w h txt t d base x0 x1, ready e /\ typed e txt t /\ t <> [] /\ c_ws e = 0%R /\ h <> 0%R /\
    cell_format e w h txt [] 0 (bs "A") false 0 [] = Ret d /\
    view (c_k e) (c_ph e) (viewer_font e) false 0 (d_marks d) = Some [InkText t x0 x1 base false] /\
    base <> (c_y e + h)%R.
Proof.
  pose (e := env1 false false 0). destruct (env1_k false false 0) as [Hk Hpt].
  assert (Hj : justifies e (bs "A") = false) by (unfold justifies; apply andb_false_r).
  destruct (cell_shows e Hk Hpt 0 50 10 _ _ [] 0 (bs "A") false 0 [] (env1_typed false false 0) ltac:(discriminate) Hj) as (d & Ed & Ev & _).
  exists e, 50%R, 10%R, (bs "ab c"), [97; 98; 32; 99], d. eexists. eexists. eexists.
  split; [apply env1_ready|]. split; [apply env1_typed|]. split; [discriminate|].
  split; [reflexivity|]. split; [lra|]. split; [exact Ed|]. split; [exact Ev|].
  unfold base_of, cell_dy, cell_descent. change (has 84 (bs "A")) with false. change (has 66 (bs "A")) with false. change (has 65 (bs "A")) with true.
  cbn. lra.
Qed.
Print Assumptions C72_baseline_refuted.

(** a line justified with alignment J in a UTF-8 font is stretched, its
    underline is not *)
Theorem C72_justified_underline_refuted :
  exists e w h txt t d x0 x1 base l tp r b, ready e /\ typed e txt t /\ c_ws e = 0%R /\ c_ul e = true /\ In 32 t /\ h <> 0%R /\
    cell_format e w h txt [] 0 (bs "J") false 0 [] = Ret d /\
    view (c_k e) (c_ph e) (viewer_font e) false 0 (d_marks d) = Some [InkText t x0 x1 base false; InkBox l tp r b PFill false] /\
    (l = x0 /\ r < x1)%R.
Proof.
  pose (e := env1 true true 0). destruct (env1_k true true 0) as [Hk Hpt].
  assert (Hj : justifies e (bs "J") = true) by (unfold justifies; cbn [e env1 c_ws c_utf8]; now destruct (Req_EM_T 0 0)).
  destruct (cell_justifies e Hk Hpt 0 50 10 _ _ [] 0 (bs "J") false 0 [] ltac:(cbn; lra) (env1_typed true true 0) ltac:(discriminate) Hj) as (d & Ed & Ev & _).
  exists e, 50%R, 10%R, (bs "ab c"), [97; 98; 32; 99], d. eexists. eexists. eexists. eexists. eexists. eexists. eexists.
  split; [apply env1_ready|]. split; [apply env1_typed|]. split; [reflexivity|]. split; [reflexivity|]. split; [cbn; auto|].
  split; [lra|]. split; [exact Ed|]. split; [exact Ev|]. split; [reflexivity|].
  unfold e. rewrite env1_width. change (blanks [97; 98; 32; 99]) with 1. change (1 =? 0) with false. cbv iota.
  match goal with |- context [ceil ?z] => destruct (ceil_spec z) as [H1 _]; set (W := IZR (ceil z)) in * end.
  unfold cell_w in H1. destruct (Req_EM_T 50 0); cbn [env1 c_cm c_fs c_ws c_x] in *; lra.
Qed.
Print Assumptions C72_justified_underline_refuted.

(** ** concrete cases *)
Example C72_ex :
  wanted_frame 0 0 5 2 (bs "lB") true = [InkBox 0 0 5 2 PFill false; InkLine 0 0 0 2; InkLine 0 2 5 2] /\
  wanted_frame 0 0 5 2 (bs "1") false = [InkBox 0 0 5 2 PStroke false] /\
  shown (env1 true true 0) [97; 98; 32; 99] = [97; 98; 32; 99].
Proof. repeat split. Qed.
(** the hypotheses of the four partial theorems are met by the text of the
    refutations *)
Example C72_ex_hyp : ready (env1 true true 0) /\ typed (env1 true true 0) (bs "ab c") [97; 98; 32; 99] /\
  ready (env1 false true 3) /\ typed (env1 false true 3) (bs "ab c") [97; 98; 32; 99] /\ In 32 [97; 98; 32; 99].
Proof. split; [apply env1_ready|]. split; [apply env1_typed|]. split; [apply env1_ready|]. split; [apply env1_typed|]. cbn; auto. Qed.
