(** Lemmas for C72. *)
From Coq Require Import Reals Lra.
From Verif Require Import Base TextModel TextSpec TextProofs LineModel LineSpec LineProofs LineProps CellModel CellSpec.
From Coq Require Import String.
Open Scope Z_scope.
Notation length := List.length.

(** ** strings *)
Lemma two_byte_bmp t : Forall (fun r => 0 <= r < 65536) t -> two_byte (utf16be t) = Some t.
Proof.
  induction 1 as [|r t Hr Ht IH]; [reflexivity|].
  unfold utf16be. cbn [flat_map]. fold (utf16be t). unfold utf16be_1.
  replace (r <? 65536) with true by lia. cbn [app two_byte]. rewrite IH. cbn [option_map]. do 2 f_equal.
  pose proof (Z.div_mod r 256). lia.
Qed.

Lemma op_utf8 t : Forall (fun r => 0 <= r < 65536) t ->
  exists l, cell_operand true (fun s => utf8toutf16 s false) (utf8 t) = Ret l /\ codes_of true l = Some t.
Proof.
  intros H. eexists. split.
  - unfold cell_operand. rewrite utf8toutf16_bmp by exact H. cbn [obind app]. reflexivity.
  - unfold codes_of. change (40 :: escape (utf16be t) ++ [41]) with (textstring (utf16be t)).
    pose proof (textstring_roundtrip (utf16be t) []) as E. rewrite app_nil_r in E. rewrite E. now apply two_byte_bmp.
Qed.

Lemma op_bytes s : ~ In 13 s ->
  exists l, cell_operand false (fun s => utf8toutf16 s false) s = Ret l /\ codes_of false l = Some s.
Proof.
  intros H. eexists. split; [reflexivity|]. unfold codes_of.
  pose proof (cell_operand_reads s []) as E. rewrite app_nil_r in E.
  rewrite E, cr_to_lf_nocr by exact H. reflexivity.
Qed.

Lemma text_bytes s : codes_of false (textstring s) = Some s.
Proof. unfold codes_of. pose proof (textstring_roundtrip s []) as E. rewrite app_nil_r in E. now rewrite E. Qed.

Lemma blank_count_gen s n : fold_left (fun n c => if c =? 32 then n + 1 else n) s n = n + blanks s.
Proof.
  revert n. induction s as [|c s IH]; intros n; [unfold blanks; cbn; lia|].
  cbn [fold_left]. rewrite IH. unfold blanks. cbn [filter]. rewrite (Z.eqb_sym c 32).
  destruct (32 =? c); cbn [List.length]; lia.
Qed.
Lemma blank_count_blanks s : blank_count s = blanks s.
Proof. unfold blank_count. rewrite blank_count_gen. lia. Qed.

Lemma blanks_app a b : blanks (a ++ b) = blanks a + blanks b.
Proof. unfold blanks. rewrite filter_app, app_length. lia. Qed.
Lemma blanks_none a : ~ In 32 a -> blanks a = 0.
Proof.
  induction a as [|c a IH]; intros H; [reflexivity|]. unfold blanks in *. cbn [filter].
  replace (32 =? c) with false by (symmetry; apply Z.eqb_neq; intros E; apply H; now left).
  apply IH. intros Hi. apply H. now right.
Qed.
Lemma blanks_utf8_1 r : scalar r -> blanks (utf8_1 r) = blanks [r].
Proof.
  intros Hr. unfold utf8_1. destruct (r <? 128) eqn:E1; [reflexivity|].
  assert (Hn : blanks [r] = 0) by (apply blanks_none; intros [E|[]]; lia). rewrite Hn.
  assert (0 <= r <= 1114111) by (unfold scalar in Hr; lia).
  destruct (r <? 2048); [|destruct (r <? 65536)]; apply blanks_none; cbn [In]; intros Hi;
    repeat match type of Hi with _ \/ _ => destruct Hi as [Hi|Hi] end; try contradiction;
    pose proof (Z.mod_pos_bound r 64); pose proof (Z.mod_pos_bound (r / 64) 64); pose proof (Z.mod_pos_bound (r / 4096) 64);
    pose proof (Z.div_pos r 64); pose proof (Z.div_pos r 4096); pose proof (Z.div_pos r 262144); lia.
Qed.
Lemma blanks_utf8 t : Forall scalar t -> blanks (utf8 t) = blanks t.
Proof.
  induction 1 as [|r t Hr Ht IH]; [reflexivity|]. unfold utf8. cbn [flat_map]. fold (utf8 t).
  change (r :: t) with ([r] ++ t). now rewrite !blanks_app, IH, blanks_utf8_1.
Qed.
Lemma blanks_rev t : blanks (rev t) = blanks t.
Proof. induction t as [|c t IH]; [reflexivity|]. cbn [rev]. rewrite blanks_app, IH. change (c :: t) with ([c] ++ t). rewrite blanks_app. lia. Qed.
Lemma width_rev f t : width f (rev t) = width f t.
Proof.
  induction t as [|c t IH]; [reflexivity|]. cbn [rev]. rewrite width_app, IH. change (c :: t) with ([c] ++ t). rewrite width_app. lia.
Qed.

(** ** splitting at blanks *)
Fixpoint words (t : list Z) : list (list Z) :=
  match t with
  | [] => [[]]
  | c :: t => if c =? 32 then [] :: words t else match words t with w :: ws => (c :: w) :: ws | [] => [[c]] end
  end.
Lemma words_cons t : exists w ws, words t = w :: ws.
Proof. induction t as [|c t (w & ws & E)]; [now exists [], []|]. cbn. destruct (c =? 32); [now exists [], (words t)|]. rewrite E. now exists (c :: w), ws. Qed.
Lemma split_prefix a s : ~ In 32 a -> split_blank (a ++ s) = match split_blank s with w :: ws => (a ++ w) :: ws | [] => [] end.
Proof.
  assert (Hs : exists w ws, split_blank s = w :: ws).
  { clear. induction s as [|c s (w & ws & E)]; [now exists [], []|]. cbn. destruct (c =? 32); [now exists [], (split_blank s)|]. rewrite E. now exists (c :: w), ws. }
  induction a as [|c a IH]; intros Hn.
  - cbn [app]. destruct Hs as (w & ws & ->). reflexivity.
  - cbn [app split_blank]. replace (c =? 32) with false by (symmetry; apply Z.eqb_neq; intros ->; apply Hn; now left).
    rewrite IH by (intros Hi; apply Hn; now right). destruct Hs as (w & ws & ->). reflexivity.
Qed.
Lemma split_utf8 t : Forall scalar t -> split_blank (utf8 t) = map utf8 (words t).
Proof.
  induction 1 as [|r t Hr Ht IH]; [reflexivity|]. unfold utf8. cbn [flat_map]. fold (utf8 t). cbn [words].
  destruct (Z.eqb_spec r 32) as [->|Hn].
  - cbn. now rewrite IH.
  - assert (Hb : ~ In 32 (utf8_1 r)).
    { intros Hi. assert (Hz : blanks (utf8_1 r) = 0).
      { rewrite blanks_utf8_1 by exact Hr. apply blanks_none. intros [E|[]]. contradiction. }
      unfold blanks in Hz. assert (In 32 (filter (Z.eqb 32) (utf8_1 r))) as Hf by (apply filter_In; split; [exact Hi|reflexivity]).
      destruct (filter (Z.eqb 32) (utf8_1 r)); [contradiction|cbn [List.length] in Hz; lia]. }
    rewrite split_prefix by exact Hb. rewrite IH. destruct (words_cons t) as (w & ws & ->). reflexivity.
Qed.
Lemma words_length t : Z.of_nat (length (words t)) = blanks t + 1.
Proof.
  induction t as [|c t IH]; [reflexivity|]. cbn [words]. unfold blanks in *. cbn [filter]. rewrite ?(Z.eqb_sym 32 c).
  destruct (c =? 32); cbn [List.length]; [lia|]. destruct (words_cons t) as (w & ws & E). rewrite E in *. cbn [List.length] in *. lia.
Qed.
Fixpoint unwords (ws : list (list Z)) : list Z :=
  match ws with [] => [] | [w] => w | w :: r => w ++ 32 :: unwords r end.
Lemma unwords_words t : unwords (words t) = t.
Proof.
  induction t as [|c t IH]; [reflexivity|]. cbn [words]. destruct (words_cons t) as (w & ws & E). rewrite E in *.
  destruct (Z.eqb_spec c 32) as [->|Hn]; [cbn [unwords]; cbn [unwords] in IH; rewrite <- IH; reflexivity|].
  destruct ws; cbn [unwords] in *; rewrite <- IH; reflexivity.
Qed.
Lemma words_forall (P : Z -> Prop) t : Forall P t -> Forall (Forall P) (words t).
Proof.
  induction 1 as [|c t Hc Ht IH]; [repeat constructor|]. cbn [words]. destruct (c =? 32); [constructor; auto|].
  destruct (words t) as [|w ws]; [repeat constructor; auto|]. inversion IH; subst. constructor; auto.
Qed.

Definition bmp (r : Z) : Prop := 0 <= r < 65536.

(** a TJ array as a viewer runs it *)
Lemma tj_view k F tw shift ws x : v_two F = true -> Forall (Forall bmp) ws -> ws <> [] ->
  exists items, tj_items shift (map utf8 ws) = Ret items /\
    tj_run k F tw items x = Some (unwords ws,
      (x + IZR (width (v_width F) (unwords ws)) * v_size F / 1000 + IZR (Z.of_nat (length ws) - 1) * shift * v_size F / 1000)%R).
Proof.
  intros H2 Hf Hn. revert x. induction Hf as [|w ws Hw Hws IH]; intros x; [contradiction|].
  destruct (op_utf8 w Hw) as (l & El & Ec). cbn [map tj_items]. rewrite El. cbn [obind].
  destruct ws as [|w2 ws].
  - exists [JStr l]. split; [reflexivity|]. cbn [tj_run]. rewrite H2, Ec. unfold advance. rewrite H2. cbn [unwords List.length].
    rewrite app_nil_r. do 2 f_equal. change (Z.of_nat 1 - 1) with 0%Z. lra.
  - destruct (op_utf8 [32]) as (sp & Esp & Ecp); [repeat constructor; unfold bmp; lia|].
    change (utf8 [32]) with [32] in Esp.
    cbn [map]. change (utf8 w2 :: map utf8 ws) with (map utf8 (w2 :: ws)). rewrite Esp. cbn [obind].
    match goal with |- context [tj_run k F tw _ x] => idtac end.
    set (x1 := (x + advance k F tw w - (- shift) * v_size F / 1000 + advance k F tw [32%Z])%R).
    destruct (IH ltac:(discriminate) x1) as (items & Ei & Er).
    rewrite Ei. cbn [obind]. eexists. split; [reflexivity|]. cbn [tj_run]. rewrite H2, Ec, Ecp. fold x1. rewrite Er.
    cbn [app]. change (unwords (w :: w2 :: ws)) with (w ++ 32 :: unwords (w2 :: ws)). do 2 f_equal.
    unfold x1, advance. rewrite H2. rewrite width_app. change (32 :: unwords (w2 :: ws)) with ([32] ++ unwords (w2 :: ws)).
    rewrite width_app, !plus_IZR. change (length (w :: w2 :: ws)) with (S (length (w2 :: ws))).
    rewrite !minus_IZR, Nat2Z.inj_succ, succ_IZR. field.
Qed.

(** ** the text of a cell *)
(** [typed e txt t]: the Go string [txt] is a text the current font can show and
    [t] are its characters: for a UTF-8 font valid UTF-8 in the Basic
    Multilingual Plane (C04) without the character one past the width table
    (C11); for another font bytes other than NUL (C11) and carriage return (C02) *)
Definition typed (e : cenv) (txt : bytes) (t : list Z) : Prop :=
  if c_utf8 e then txt = utf8 t /\ Forall scalar t /\ Forall bmp t /\ ~ In (Z.of_nat (length (c_cw e))) t
  else txt = t /\ Forall is_byte t /\ ~ In 0 t /\ ~ In 13 t /\ length (c_cw e) = 256%nat.
(** the characters in the order they are shown *)
Definition shown (e : cenv) (t : list Z) : list Z := if c_utf8 e && c_rtl e then rev t else t.
(** the font as the viewer knows it (C41, C68: the widths in the file are the
    widths the library uses) *)
Definition viewer_font (e : cenv) : vfont :=
  {| v_two := c_utf8 e;
     v_width := if c_utf8 e then glyph (c_cw e) (c_missing e) else wd (c_cw e);
     v_size := c_fs e |}.

Section Env.
  Variable e : cenv.
  Notation F := (viewer_font e).

  Lemma typed_shown txt t : typed e txt t -> typed e (oriented e txt) (shown e t).
  Proof.
    unfold typed, oriented, shown. destruct (c_utf8 e); cbn [andb]; [|easy].
    intros (-> & Hs & Hb & Hn). destruct (c_rtl e); [|easy].
    rewrite reverse_text_utf8 by exact Hs. split; [reflexivity|]. split; [now apply Forall_rev|]. split; [now apply Forall_rev|].
    now rewrite <- in_rev.
  Qed.

  Lemma sym_width_typed txt t : typed e txt t -> sym_width e txt = Ret (width (v_width F) t).
  Proof.
    unfold typed, sym_width. cbn [viewer_font v_width]. destruct (c_utf8 e).
    - intros (-> & Hs & Hb & Hn). now apply (proj1 (proj2 (proj2 C11_width_partial))).
    - intros (-> & Hb & H0 & H13 & Hl). now apply (proj1 C11_width_partial).
  Qed.
  Lemma width_shown t : width (v_width F) (shown e t) = width (v_width F) t.
  Proof. unfold shown. destruct (c_utf8 e && c_rtl e); [apply width_rev|reflexivity]. Qed.
  Lemma blanks_shown t : blanks (shown e t) = blanks t.
  Proof. unfold shown. destruct (c_utf8 e && c_rtl e); [apply blanks_rev|reflexivity]. Qed.
  Lemma blank_count_typed txt t : typed e txt t -> blank_count txt = blanks t.
  Proof.
    unfold typed. rewrite blank_count_blanks. destruct (c_utf8 e); [|now intros (-> & _)].
    intros (-> & Hs & _). now apply blanks_utf8.
  Qed.
  Lemma used_typed txt t : typed e txt t -> used_of e txt = if c_utf8 e then t else [].
  Proof. unfold typed, used_of. destruct (c_utf8 e); [|easy]. intros (-> & Hs & _). now apply go_runes_utf8. Qed.

  Definition nat_width (t : list Z) : R := (IZR (width (v_width F) t) * c_fs e / 1000)%R.
  Lemma str_width_typed txt t : typed e txt t -> str_width e txt = Ret (nat_width t).
  Proof. intros H. unfold str_width. now rewrite (sym_width_typed txt t H). Qed.
  Lemma deco_width_typed txt t : typed e txt t -> deco_width e txt = Ret (nat_width t + c_ws e * IZR (blanks t))%R.
  Proof. intros H. unfold deco_width. rewrite (str_width_typed txt t H), (blank_count_typed txt t H). reflexivity. Qed.

  Lemma operand_typed txt t : typed e txt t ->
    exists l, cell_operand (c_utf8 e) (fun s => utf8toutf16 s false) txt = Ret l /\ codes_of (v_two F) l = Some t.
  Proof.
    unfold typed. cbn [viewer_font v_two]. destruct (c_utf8 e).
    - intros (-> & _ & Hb & _). now apply op_utf8.
    - intros (-> & _ & _ & Hn & _). now apply op_bytes.
  Qed.

  (** the space by which the text starts after the left side of the cell *)
  Definition dx_of (w : R) (t : list Z) (align : bytes) : R :=
    if has 82 align then (w - c_cm e - nat_width t)%R
    else if has 67 align then ((w - nat_width t) / 2)%R else c_cm e.
  Lemma cell_dx_typed w txt t align : typed e txt t -> cell_dx e w txt align = Ret (dx_of w t align).
  Proof.
    intros H. unfold cell_dx, dx_of. rewrite (str_width_typed txt t H). cbn [obind].
    destruct (has 82 align); [reflexivity|]. now destruct (has 67 align).
  Qed.

  Lemma has_In c b : has c b = true <-> In c b.
  Proof.
    unfold has. rewrite existsb_exists. split; [intros (x & Hx & E); apply Z.eqb_eq in E; now subst|].
    intros H. exists c. split; [exact H|apply Z.eqb_refl].
  Qed.
End Env.

(** ** the frame *)
Lemma mentions_upper c b : c = 76 \/ c = 84 \/ c = 82 \/ c = 66 -> has c (upper b) = mentions c b.
Proof.
  intros Hc. unfold has, upper, mentions. induction b as [|d b IH]; [reflexivity|].
  cbn [List.map existsb]. rewrite IH. f_equal. unfold up1.
  destruct ((97 <=? d) && (d <=? 122)) eqn:E; apply eq_true_iff_eq; rewrite orb_true_iff, !Z.eqb_eq; lia.
Qed.
Lemma upper_one b : beqb (upper b) (bs "1") = beqb b (bs "1").
Proof.
  apply eq_true_iff_eq. rewrite !beqb_eq. split; [|now intros ->].
  destruct b as [|d [|d2 b]]; cbn; try discriminate. intros [= E]. unfold up1 in E.
  destruct ((97 <=? d) && (d <=? 122)) eqn:E2; [lia|]. now rewrite E.
Qed.
Lemma view_app k H F col tw a b :
  Forall (fun m => match m with MRect _ _ _ _ _ | MLine _ _ _ _ => True | _ => False end) a ->
  view k H F col tw (a ++ b) =
    match view k H F col tw a, view k H F col tw b with Some x, Some y => Some (x ++ y) | _, _ => None end.
Proof.
  intros Ha. induction Ha as [|m a Hm Ha IH]; [cbn; now destruct (view k H F col tw b)|].
  destruct m; try contradiction; cbn [app view]; rewrite IH;
    destruct (view k H F col tw a), (view k H F col tw b); reflexivity.
Qed.

Section Frame.
  Variable e : cenv.
  Hypothesis Hk : (0 < c_k e)%R.
  Lemma frame_plain w h border fill :
    Forall (fun m => match m with MRect _ _ _ _ _ | MLine _ _ _ _ => True | _ => False end) (cell_frame e w h border fill).
  Proof.
    unfold cell_frame. cbv zeta. repeat (apply Forall_app; split);
    repeat match goal with |- context [if ?b then _ else _] => destruct b end; repeat constructor.
    all: repeat (apply Forall_app; split); repeat match goal with |- context [if ?b then _ else _] => destruct b end; repeat constructor.
  Qed.
  Lemma frame_view F col tw w h border fill : col = false ->
    view (c_k e) (c_ph e) F col tw (cell_frame e w h (upper border) fill) =
    Some (wanted_frame (c_x e) (c_y e) (c_x e + w) (c_y e + h) border fill).
  Proof.
    intros ->. unfold cell_frame, wanted_frame. cbv zeta. rewrite upper_one, !mentions_upper by tauto.
    assert (Kx : forall x, ux (c_k e) (x * c_k e) = x) by (intros; unfold ux; field; lra).
    assert (Ky : forall y, uy (c_k e) (c_ph e) ((c_ph e - y) * c_k e) = y) by (intros; unfold uy; field; lra).
    assert (Kr : forall x w, ux (c_k e) (x * c_k e + w * c_k e) = (x + w)%R) by (intros; unfold ux; field; lra).
    assert (Kb : forall y h, uy (c_k e) (c_ph e) ((c_ph e - y) * c_k e + - h * c_k e) = (y + h)%R) by (intros; unfold uy; field; lra).
    destruct (beqb border (bs "1")) eqn:E1.
    - rewrite orb_true_r, andb_false_r, app_nil_r. cbn [view option_map]. rewrite Kx, Ky, Kr, Kb. now destruct fill.
    - rewrite orb_false_r, andb_true_r.
      destruct (beqb (upper border) []) eqn:E0.
      + apply beqb_eq in E0. destruct border; [|discriminate]. cbn [negb mentions existsb app].
        rewrite app_nil_r. destruct fill; cbn [view option_map app]; rewrite ?Kx, ?Ky, ?Kr, ?Kb; reflexivity.
      + cbn [negb].
        destruct fill, (mentions 76 border), (mentions 84 border), (mentions 82 border), (mentions 66 border);
          cbn [view option_map app]; rewrite ?Kx, ?Ky, ?Kr, ?Kb; reflexivity.
  Qed.
End Frame.

(** ** the marks of a text *)
Section TextMarks.
  Variable e : cenv.
  Hypothesis Hk : (0 < c_k e)%R.
  Hypothesis Hpt : c_pt e = (c_fs e * c_k e)%R.
  Notation F := (viewer_font e).

  (** underline and strike-out between two abscissas *)
  Definition deco_inks (x0 x1 base : R) : list ink :=
    (if c_ul e then
       let top := (base - IZR (c_up e) / 1000 * c_fs e)%R in
       [InkBox x0 top x1 (top + IZR (c_ut e) * c_thick e / 1000 * c_fs e) PFill (c_flag e)] else []) ++
    (if c_so e then
       let top := (base + 4 * IZR (c_up e) / 1000 * c_fs e)%R in
       [InkBox x0 top x1 (top + IZR (c_ut e) / 1000 * c_fs e) PFill (c_flag e)] else []).

  Lemma ux_k x : ux (c_k e) (x * c_k e) = x.
  Proof. unfold ux. field. lra. Qed.
  Lemma uy_k y : uy (c_k e) (c_ph e) ((c_ph e - y) * c_k e) = y.
  Proof. unfold uy. field. lra. Qed.

  (** the marks after the colour: one showing operator, then the decorations *)
  Lemma deco_view show x base txt t tw :
    typed e txt t ->
    exists under strike,
      opt_mark (c_ul e) (do_underline e x base txt) = Ret under /\
      opt_mark (c_so e) (do_strikeout e x base txt) = Ret strike /\
      forall inks tw',
        (forall r, view (c_k e) (c_ph e) F (c_flag e) tw (show :: r) =
                   match view (c_k e) (c_ph e) F (c_flag e) tw' r with Some i => Some (inks :: i) | None => None end) ->
        view (c_k e) (c_ph e) F false tw
          ((if c_flag e then [MColour] else []) ++ [show] ++ under ++ strike ++ (if c_flag e then [MRestore] else [])) =
        Some (inks :: deco_inks x (x + (nat_width e t + c_ws e * IZR (blanks t))) base).
  Proof.
    intros Ht. unfold do_underline, do_strikeout. rewrite (deco_width_typed e txt t Ht). cbn [obind].
    set (W := (nat_width e t + c_ws e * IZR (blanks t))%R).
    set (u := MRect (x * c_k e) ((c_ph e - (base - IZR (c_up e) / 1000 * c_fs e)) * c_k e) (W * c_k e)
             (- (IZR (c_ut e) * c_thick e) / 1000 * c_pt e) PFill).
    set (s := MRect (x * c_k e) ((c_ph e - (base + 4 * IZR (c_up e) / 1000 * c_fs e)) * c_k e) (W * c_k e)
             (- IZR (c_ut e) / 1000 * c_pt e) PFill).
    exists (if c_ul e then [u] else []), (if c_so e then [s] else []).
    split; [now destruct (c_ul e)|]. split; [now destruct (c_so e)|].
    intros inks tw' Hs.
    assert (Hdeco : view (c_k e) (c_ph e) F (c_flag e) tw'
       ((if c_ul e then [u] else []) ++ (if c_so e then [s] else []) ++ (if c_flag e then [MRestore] else []))
       = Some (deco_inks x (x + W) base)).
    { assert (Kr : ux (c_k e) (x * c_k e + W * c_k e) = (x + W)%R) by (unfold ux; field; lra).
      assert (Kb : forall y a, uy (c_k e) (c_ph e) ((c_ph e - y) * c_k e + - a / 1000 * c_pt e) = (y + a / 1000 * c_fs e)%R)
        by (intros; unfold uy; rewrite Hpt; field; lra).
      unfold deco_inks, u, s. destruct (c_ul e), (c_so e), (c_flag e); cbn [app view option_map];
        rewrite ?ux_k, ?uy_k, ?Kr, ?Kb; reflexivity. }
    match goal with |- _ = ?rhs => transitivity (view (c_k e) (c_ph e) F (c_flag e) tw
      (show :: (if c_ul e then [u] else []) ++ (if c_so e then [s] else []) ++ (if c_flag e then [MRestore] else []))) end.
    { destruct (c_flag e); reflexivity. }
    rewrite Hs. cbv beta. rewrite Hdeco. reflexivity.
  Qed.
End TextMarks.

(** ** a whole cell *)
Section Whole.
  Variable e : cenv.
  Hypothesis Hk : (0 < c_k e)%R.
  Hypothesis Hpt : c_pt e = (c_fs e * c_k e)%R.
  Notation F := (viewer_font e).

  Definition base_of (h : R) (align : bytes) : R := (c_y e + cell_dy e h align + 5 / 10 * h + 3 / 10 * c_fs e)%R.
  Definition justifies (align : bytes) : bool :=
    (if Req_EM_T (c_ws e) 0 then beqb align (bs "J") else true) && c_utf8 e.

  Lemma typed_nonempty txt t : typed e txt t -> t <> [] -> exists c r, txt = c :: r.
  Proof.
    unfold typed. intros H Hn. destruct t as [|c t]; [contradiction|]. destruct (c_utf8 e).
    - destruct H as (-> & _). unfold utf8. cbn [flat_map]. destruct (utf8_1_cons c) as (b & a & ->). cbn [app]. eauto.
    - destruct H as (-> & _). eauto.
  Qed.

  Lemma cell_format_eq w h txt t border ln align fill link url text l used :
    typed e txt t -> t <> [] ->
    cell_text e (cell_w e w) h txt align link url = Ret (text, l, used) ->
    exists d, cell_format e w h txt border ln align fill link url = Ret d /\
      d_marks d = cell_frame e (cell_w e w) h (upper border) fill ++ text /\ d_link d = l /\ d_used d = used.
  Proof.
    intros Ht Hn E. destruct (typed_nonempty txt t Ht Hn) as (c & r & Ec). unfold cell_format.
    rewrite Ec in *. rewrite E. cbn [obind]. eexists. split; [reflexivity|]. now split.
  Qed.

  Lemma frame_then_text tw w h border fill text inks :
    view (c_k e) (c_ph e) F false tw text = Some inks ->
    view (c_k e) (c_ph e) F false tw (cell_frame e w h (upper border) fill ++ text) =
    Some (wanted_frame (c_x e) (c_y e) (c_x e + w) (c_y e + h) border fill ++ inks).
  Proof.
    intros Hv. rewrite view_app by apply frame_plain. rewrite frame_view by auto. now rewrite Hv.
  Qed.

  Definition link_wanted (link : Z) (url : bytes) : bool := (0 <? link) || negb (beqb url []).

  Lemma link_part txt t (x0 y : R) link url : typed e txt t ->
    (if (0 <? link)%Z || negb (beqb url []) then
       obind (str_width e txt) (fun sw => Ret (Some (x0, y, sw, c_fs e))) else Ret None) =
    Ret (if link_wanted link url then Some (x0, y, nat_width e t, c_fs e) else None).
  Proof. intros Ht. rewrite (str_width_typed e txt t Ht). unfold link_wanted. cbn [obind]. now destruct (_ || _). Qed.

  Lemma nat_width_shown t : nat_width e (shown e t) = nat_width e t.
  Proof. unfold nat_width. now rewrite width_shown. Qed.

  (** the branch that shows the text with one Tj *)
  Lemma cell_shows tw w h txt t border ln align fill link url :
    typed e txt t -> t <> [] -> justifies align = false ->
    let x0 := (c_x e + dx_of e (cell_w e w) t align)%R in
    let base := base_of h align in
    exists d, cell_format e w h txt border ln align fill link url = Ret d /\
      view (c_k e) (c_ph e) F false tw (d_marks d) =
        Some (wanted_frame (c_x e) (c_y e) (c_x e + cell_w e w) (c_y e + h) border fill ++
              InkText (shown e t) x0 (x0 + advance (c_k e) F tw (shown e t)) base (c_flag e) ::
              deco_inks e x0 (x0 + (nat_width e t + c_ws e * IZR (blanks t))) base) /\
      d_link d = (if link_wanted link url then Some (x0, em_top (c_fs e) base, nat_width e t, c_fs e) else None) /\
      d_used d = (if c_utf8 e then shown e t else []).
  Proof.
    intros Ht Hn Hj x0 base. pose proof (typed_shown e txt t Ht) as Ht'.
    destruct (operand_typed e _ _ Ht') as (lit & El & Ec).
    assert (Hshow : cell_show e (cell_w e w) h (dx_of e (cell_w e w) t align) (cell_dy e h align) (oriented e txt) align =
                    Ret (MShow (x0 * c_k e) ((c_ph e - base) * c_k e) lit)).
    { unfold cell_show. unfold justifies in Hj. rewrite Hj, El. reflexivity. }
    destruct (deco_view e Hk Hpt (MShow (x0 * c_k e) ((c_ph e - base) * c_k e) lit) x0 base _ _ tw Ht')
      as (under & strike & Eu & Es & Hv).
    assert (Htext : cell_text e (cell_w e w) h txt align link url =
       Ret ((if c_flag e then [MColour] else []) ++ [MShow (x0 * c_k e) ((c_ph e - base) * c_k e) lit] ++ under ++ strike ++
            (if c_flag e then [MRestore] else []),
            (if link_wanted link url then Some (x0, em_top (c_fs e) base, nat_width e t, c_fs e) else None),
            used_of e (oriented e txt))).
    { unfold cell_text. rewrite (cell_dx_typed e _ _ t align Ht). cbn [obind]. rewrite Hshow. cbn [obind].
      change (c_y e + cell_dy e h align + 5 / 10 * h + 3 / 10 * c_fs e)%R with base. fold x0. rewrite Eu. cbn [obind]. rewrite Es. cbn [obind].
      rewrite (link_part _ _ _ _ link url Ht'). cbn [obind]. rewrite nat_width_shown. do 3 f_equal.
      destruct (link_wanted link url); [|reflexivity]. do 4 f_equal. unfold em_top, base, base_of. lra. }
    destruct (cell_format_eq w h txt t border ln align fill link url _ _ _ Ht Hn Htext) as (d & Ed & Em & Elk & Eus).
    exists d. split; [exact Ed|]. rewrite Em, Elk, Eus. split; [|split; [reflexivity|now apply used_typed]].
    apply frame_then_text. rewrite (Hv (InkText (shown e t) x0 (x0 + advance (c_k e) F tw (shown e t)) base (c_flag e)) tw).
    - now rewrite nat_width_shown, blanks_shown.
    - intros r. cbn [view]. rewrite Ec. rewrite ux_k, uy_k by exact Hk. now destruct (view _ _ _ _ _ r).
  Qed.

  Lemma advance_shown tw t : advance (c_k e) F tw (shown e t) =
    (nat_width e t + (if c_utf8 e then 0 else tw / c_k e * IZR (blanks t)))%R.
  Proof. unfold advance. rewrite width_shown, blanks_shown. reflexivity. Qed.

  Lemma ceil_spec r : (r <= IZR (ceil r) < r + 1)%R.
  Proof. unfold ceil. destruct (archimed (- r)) as [H1 H2]. rewrite opp_IZR, minus_IZR. lra. Qed.

  (** the branch with a TJ array *)
  Lemma cell_justifies tw w h txt t border ln align fill link url :
    (c_fs e <> 0)%R ->
    typed e txt t -> t <> [] -> justifies align = true ->
    let x0 := (c_x e + dx_of e (cell_w e w) t align)%R in
    let base := (c_y e + 5 / 10 * h + 3 / 10 * c_fs e)%R in
    let wmax := ceil ((cell_w e w - 2 * c_cm e) * 1000 / c_fs e) in
    exists d, cell_format e w h txt border ln align fill link url = Ret d /\
      view (c_k e) (c_ph e) F false tw (d_marks d) =
        Some (wanted_frame (c_x e) (c_y e) (c_x e + cell_w e w) (c_y e + h) border fill ++
              InkText (shown e t) x0 (x0 + if blanks t =? 0 then nat_width e t else IZR wmax * c_fs e / 1000) base (c_flag e) ::
              deco_inks e x0 (x0 + (nat_width e t + c_ws e * IZR (blanks t))) (base + cell_dy e h align)) /\
      d_used d = shown e t.
  Proof.
    intros Hfs Ht Hn Hj x0 base wmax. pose proof (typed_shown e txt t Ht) as Ht'.
    assert (Hu : c_utf8 e = true) by (unfold justifies in Hj; apply andb_prop in Hj; tauto).
    pose proof Ht' as Ht2. unfold typed in Ht2. rewrite Hu in Ht2. destruct Ht2 as (Eo & Hsc & Hb & _).
    set (shift := (IZR (wmax - width (v_width F) (shown e t)) / IZR (Z.of_nat (length (words (shown e t))) - 1))%R).
    destruct (tj_view (c_k e) F 0 shift (words (shown e t)) x0) as (items & Ei & Er).
    { exact Hu. }
    { now apply words_forall. }
    { destruct (words_cons (shown e t)) as (? & ? & ->). discriminate. }
    assert (Hshow : cell_show e (cell_w e w) h (dx_of e (cell_w e w) t align) (cell_dy e h align) (oriented e txt) align =
                    Ret (MShowJ (x0 * c_k e) ((c_ph e - base) * c_k e) items)).
    { unfold cell_show. unfold justifies in Hj. rewrite Hj, (sym_width_typed e _ _ Ht'). cbn [obind].
      rewrite Eo at 1 2. rewrite split_utf8 by exact Hsc. rewrite map_length. fold wmax. fold shift. rewrite Ei. reflexivity. }
    destruct (deco_view e Hk Hpt (MShowJ (x0 * c_k e) ((c_ph e - base) * c_k e) items) x0 (base + cell_dy e h align) _ _ tw Ht')
      as (under & strike & Eu & Es & Hv).
    assert (Htext : exists lk, cell_text e (cell_w e w) h txt align link url =
       Ret ((if c_flag e then [MColour] else []) ++ [MShowJ (x0 * c_k e) ((c_ph e - base) * c_k e) items] ++ under ++ strike ++
            (if c_flag e then [MRestore] else []), lk, used_of e (oriented e txt))).
    { eexists. unfold cell_text. rewrite (cell_dx_typed e _ _ t align Ht). cbn [obind]. rewrite Hshow. cbn [obind].
      replace (c_y e + cell_dy e h align + 5 / 10 * h + 3 / 10 * c_fs e)%R with (base + cell_dy e h align)%R by (unfold base; lra).
      fold x0. rewrite Eu. cbn [obind]. rewrite Es. cbn [obind].
      rewrite (link_part _ _ _ _ link url Ht'). cbn [obind]. reflexivity. }
    destruct Htext as (lk & Htext).
    destruct (cell_format_eq w h txt t border ln align fill link url _ _ _ Ht Hn Htext) as (d & Ed & Em & Elk & Eus).
    exists d. split; [exact Ed|]. rewrite Em, Eus. split; [|rewrite (used_typed e _ _ Ht'); now rewrite Hu].
    apply frame_then_text.
    rewrite (Hv (InkText (shown e t) x0 (x0 + if blanks t =? 0 then nat_width e t else IZR wmax * c_fs e / 1000) base (c_flag e)) 0%R).
    - now rewrite nat_width_shown, blanks_shown.
    - intros r. cbn [view]. rewrite ux_k, uy_k by exact Hk. rewrite Er, unwords_words.
      replace (x0 + IZR (width (v_width F) (shown e t)) * v_size F / 1000 +
               IZR (Z.of_nat (length (words (shown e t))) - 1) * shift * v_size F / 1000)%R
        with (x0 + (if blanks t =? 0 then nat_width e t else IZR wmax * c_fs e / 1000))%R.
      { now destruct (view _ _ _ _ _ r). }
      unfold shift. rewrite words_length, blanks_shown, width_shown. replace (blanks t + 1 - 1) with (blanks t) by lia.
      cbn [viewer_font v_size]. rewrite minus_IZR. destruct (Z.eqb_spec (blanks t) 0) as [->|Hb0].
      + unfold nat_width. cbn [viewer_font v_width]. lra.
      + apply not_0_IZR in Hb0. unfold nat_width. cbn [viewer_font v_width]. field. exact Hb0.
  Qed.

  (** Text *)
  Lemma text_shows tw x y txt t :
    typed e txt t -> t <> [] ->
    let x0 := (if c_utf8 e && c_rtl e then x - nat_width e t else x)%R in
    exists ms, text_at e x y txt = Ret (ms, if c_utf8 e then shown e t else []) /\
      view (c_k e) (c_ph e) F false tw ms =
        Some (InkText (shown e t) x0 (x0 + advance (c_k e) F tw (shown e t)) y (c_flag e) ::
              deco_inks e x0 (x0 + (nat_width e t + c_ws e * IZR (blanks t))) y).
  Proof.
    intros Ht Hn x0. pose proof (typed_shown e txt t Ht) as Ht'.
    assert (Hlit : exists l, (if c_utf8 e then cell_operand true (fun s => utf8toutf16 s false) (oriented e txt)
                              else Ret (textstring (oriented e txt))) = Ret l /\ codes_of (v_two F) l = Some (shown e t)).
    { pose proof (operand_typed e _ _ Ht') as Ho. cbn [viewer_font v_two] in *. destruct (c_utf8 e) eqn:Eu; [exact Ho|].
      eexists. split; [reflexivity|]. rewrite text_bytes. f_equal. unfold typed in Ht'. rewrite Eu in Ht'. tauto. }
    destruct Hlit as (lit & El & Ec).
    assert (Hx : (if c_utf8 e && c_rtl e then obind (str_width e (oriented e txt)) (fun sw => Ret (x - sw)%R) else Ret x) = Ret x0).
    { rewrite (str_width_typed e _ _ Ht'), nat_width_shown. cbn [obind]. unfold x0. now destruct (c_utf8 e && c_rtl e). }
    assert (Hne : negb (beqb (oriented e txt) []) = true).
    { destruct (typed_nonempty _ _ Ht') as (c & r & ->); [|reflexivity].
      unfold shown. destruct (c_utf8 e && c_rtl e); [|exact Hn]. destruct t; [contradiction|]. cbn [rev]. now destruct (rev t). }
    destruct (deco_view e Hk Hpt (MShow (x0 * c_k e) ((c_ph e - y) * c_k e) lit) x0 y _ _ tw Ht')
      as (under & strike & Eu & Es & Hv).
    eexists. split.
    - unfold text_at. rewrite Hx. cbn [obind]. rewrite El. cbn [obind]. rewrite Hne, !andb_true_r.
      rewrite Eu. cbn [obind]. rewrite Es. cbn [obind]. rewrite (used_typed e _ _ Ht'). reflexivity.
    - rewrite (Hv (InkText (shown e t) x0 (x0 + advance (c_k e) F tw (shown e t)) y (c_flag e)) tw).
      + now rewrite nat_width_shown, blanks_shown.
      + intros r. cbn [view]. rewrite Ec. rewrite ux_k, uy_k by exact Hk. now destruct (view _ _ _ _ _ r).
  Qed.
End Whole.
