(** C28 and C29: RGB and spot colors. *)
From Verif Require Import Base TextModel ApiModel ApiProofs ApiErr ApiQuiet ApiTurn ApiLife ApiKeep ApiInst ApiSync ApiKeepProps ApiBreakProps ApiColor.
From Coq Require Import String SpecFloat.
Local Open Scope string_scope.
Local Open Scope list_scope.
Local Open Scope Z_scope.

(** ** Specification *)
Definition clamp (lo hi v : Z) : Z := Z.max lo (Z.min hi v).

Section Spec.
  Context {A : arith}.
  (** the text shown on a page, with the fill color in force for each piece *)
  Fixpoint shows_from (q : reader A) (l : list (op A)) : list (bytes * bytes) :=
    match l with
    | [] => []
    | o :: l => (match o with Show _ _ txt => [(txt, r_fill (fst q))] | _ => [] end) ++ shows_from (read1 q o) l
    end.
  Definition shows (l : list (op A)) : list (bytes * bytes) := shows_from (look0, []) l.
  Definition rgb_of (c : @color) : Z * Z * Z := (c_r c, c_g c, c_b c).
  (** the operator that selects an RGB color, in gray where the components agree *)
  Definition rgb_operator (r g b : Z) (gray full : bytes) : bytes :=
    let v z := f3 A (ndiv A (ofZ A z) (ofZ A 255)) in
    if (r =? g) && (g =? b) then v r ++ bs " " ++ gray
    else v r ++ bs " " ++ v g ++ bs " " ++ v b ++ bs " " ++ full.
End Spec.

(** 0/255 .. 255/255 are 256 different doubles: the numerator can be read back *)
Definition gray64 (a : Z) : spec_float := SFdiv 53 1024 (f64 a) (f64 255).
Definition numerator (x : spec_float) : Z :=
  match x with S754_finite false m e => (Zpos m * 510 + 2 ^ (- e)) / 2 ^ (1 - e) | S754_zero _ => 0 | _ => -1 end.
Lemma gray_levels : forallb (fun a => numerator (gray64 a) =? a) (map Z.of_nat (seq 0 256)) = true.
Proof. vm_compute. reflexivity. Qed.
Lemma SFeqb_numerator x y : 0 <= numerator x -> 0 <= numerator y -> SFeqb x y = true -> numerator x = numerator y.
Proof.
  unfold SFeqb, SFcompare. destruct x as [s| | |[] m e], y as [s'| | |[] m' e']; cbn [numerator]; try lia; try discriminate.
  intros _ _. destruct (Z.compare_spec e e') as [->| |]; try discriminate.
  change (Pos.compare_cont Eq m m') with (Pos.compare m m'). destruct (Pos.compare_spec m m') as [->| |]; try discriminate. reflexivity.
Qed.
Lemma SFeqb_refl x : 0 <= numerator x -> SFeqb x x = true.
Proof.
  unfold SFeqb, SFcompare. destruct x as [s| | |[] m e]; cbn [numerator]; try lia; try reflexivity.
  intros _. rewrite Z.compare_refl. now rewrite Pos.compare_cont_refl.
Qed.
Lemma gray_level a b : 0 <= a <= 255 -> 0 <= b <= 255 ->
  SFeqb (SFdiv 53 1024 (f64 a) (f64 255)) (SFdiv 53 1024 (f64 b) (f64 255)) = (a =? b).
Proof.
  intros Ha Hb. pose proof gray_levels as H. rewrite forallb_forall in H.
  assert (I : forall z, 0 <= z <= 255 -> numerator (gray64 z) = z).
  { intros z Hz. apply Z.eqb_eq, H. apply in_map_iff. exists (Z.to_nat z). split; [lia|]. apply in_seq. lia. }
  fold (gray64 a) (gray64 b). pose proof (I a Ha) as Ia. pose proof (I b Hb) as Ib.
  apply eq_true_iff_eq. rewrite Z.eqb_eq. split.
  - intros E. rewrite <- Ia, <- Ib. apply SFeqb_numerator; lia || exact E.
  - intros <-. apply SFeqb_refl. lia.
Qed.

Section Props.
  Context {A : arith} (core_font : bytes -> bytes -> fontdef + bytes)
    (asm : st A -> option (bytes * option error)).
  Notation run := (run core_font asm).
  Notation exec := (exec core_font asm).
  Implicit Types s : st A.

  Lemma comp_clamp v : comp v = clamp 0 255 v.
  Proof. unfold comp, clamp. destruct (Z.ltb_spec v 0); [lia|]. destruct (Z.gtb_spec v 255); lia. Qed.

  (** C28: the components, in every state and for all integers; the call
      changes no other color, nor fonts, geometry, contexts or errors. *)
  Theorem C28_clamped n r g b s :
    (forall s', exec (S n) (SetDrawColor r g b) s = Some s' -> rgb_of (g_draw (t_gfx s')) = (clamp 0 255 r, clamp 0 255 g, clamp 0 255 b) /\
       g_fill (t_gfx s') = g_fill (t_gfx s) /\ g_text (t_gfx s') = g_text (t_gfx s) /\ t_geo s' = t_geo s /\ t_fnt s' = t_fnt s /\ errof s' = errof s) /\
    (forall s', exec (S n) (SetFillColor r g b) s = Some s' -> rgb_of (g_fill (t_gfx s')) = (clamp 0 255 r, clamp 0 255 g, clamp 0 255 b) /\
       g_draw (t_gfx s') = g_draw (t_gfx s) /\ g_text (t_gfx s') = g_text (t_gfx s) /\ t_geo s' = t_geo s /\ t_fnt s' = t_fnt s /\ errof s' = errof s) /\
    (forall s', exec (S n) (SetTextColor r g b) s = Some s' -> rgb_of (g_text (t_gfx s')) = (clamp 0 255 r, clamp 0 255 g, clamp 0 255 b) /\
       g_draw (t_gfx s') = g_draw (t_gfx s) /\ g_fill (t_gfx s') = g_fill (t_gfx s) /\ t_geo s' = t_geo s /\ t_fnt s' = t_fnt s /\ errof s' = errof s).
  Proof.
    rewrite <- !comp_clamp. repeat split; injection H as <-; unfold set_draw_color, set_fill_color, set_text_color;
      rewrite ?eop_gfx, ?eop_geo, ?eop_fnt, ?eop_errof; reflexivity.
  Qed.

  (** text is shown in the text color, in flat programs that use no spot color
      for text *)
  Lemma shows_app q l1 l2 : shows_from q (l1 ++ l2) = shows_from q l1 ++ shows_from (read (A := A) q l1) l2.
  Proof. revert q. induction l1 as [|o l1 IH]; intros q; [reflexivity|]. cbn [app shows_from]. rewrite IH, app_assoc. reflexivity. Qed.

  Definition plain_text (c : call A) : Prop := flat c /\ no_text_spot c.

  Theorem C28_text_color n p k o w h m b s : okp plain_text p ->
    run n p (init (A := A) k o w h m) = Some (b, s) -> failed s = false -> l_state (t_life s) = 2 -> (1 <= pageno s)%nat ->
    forall j x y txt s', exec (S j) (Text x y txt) s = Some s' ->
    shows (ops_of s' (pageno s')) = shows (ops_of s (pageno s)) ++ [(txt, c_str (g_text (t_gfx s)))].
  Proof.
    intros Hp H Hf H2 Hpg j x y txt s' HE. cbn in HE. injection HE as <-.
    assert (H0 : hooks_ok plain_text (init (A := A) k o w h m)).
    { unfold init. destruct (if beqb o (bs "P") then _ else _). repeat split; discriminate. }
    assert (HF : flag_ok s).
    { eapply (run_flag core_font asm plain_text); [|exact Hp|exact H0| |exact H]; [intros c Hc; apply Hc|].
      unfold init. destruct (if beqb o (bs "P") then _ else _). unfold flag_ok, differ. cbn. now rewrite beqb_refl. }
    assert (HS : sinv 0 s).
    { refine (proj1 (proj1 (y_run 0 core_font asm n p _ b s _ _ _ H))).
      - eapply okp_impl; [|exact Hp]. intros c Hc. apply Hc.
      - unfold init. destruct (if beqb o (bs "P") then _ else _). repeat split; discriminate.
      - unfold init. destruct (if beqb o (bs "P") then _ else _). unfold sinv. cbn. repeat split; try lia. }
    destruct HS as (P1 & _ & P3 & P4). destruct (P4 ltac:(lia) Hf H2) as (pg & g & G1 & G2 & (_ & _ & G3 & _)).
    assert (HO : ops_of s (pageno s) = p_ops pg) by (unfold ops_of; now rewrite G1).
    unfold text_at. cbv zeta. rewrite emit_pageno, (emit_ops asm); [|exact H2|unfold ApiSync.last in P1; lia].
    rewrite Nat.eqb_refl, HO. unfold shows. rewrite shows_app, G2. f_equal.
    unfold flag_ok, differ in HF. rewrite HF. destruct (beqb (c_str (g_fill (t_gfx s))) (c_str (g_text (t_gfx s)))) eqn:E; cbn.
    - apply beqb_eq in E. now rewrite G3, E.
    - reflexivity.
  Qed.

  (** *** C29 *)
  (** In every state any program reaches the spot colors are numbered from 1 in
      the order of their definition, under distinct names, and what a later
      part of the program does leaves those defined as they are. *)
  Theorem C29_table n p k o w h m b s : run n p (init (A := A) k o w h m) = Some (b, s) ->
    (forall i nm c, nth_error (g_spots (t_gfx s)) i = Some (nm, c) ->
       sp_id c = Z.of_nat i + 1 /\ sp_c c <= 100 /\ sp_m c <= 100 /\ sp_y c <= 100 /\ sp_k c <= 100) /\
    NoDup (List.map fst (g_spots (t_gfx s))) /\
    forall n' p' b' s', run n' p' s = Some (b', s') -> exists l, g_spots (t_gfx s') = g_spots (t_gfx s) ++ l.
  Proof.
    intros H. destruct (run_spots _ _ _ _ _ _ _ (init_spots k o w h m) H) as [H1 _].
    split; [intros i nm c Hn; destruct (H1 _ _ _ Hn) as (? & _ & ?); auto|]. split.
    - apply NoDup_nth_error. intros i j Hi Hj. rewrite map_length in Hi. rewrite !nth_error_map in Hj.
      destruct (nth_error (g_spots (t_gfx s)) i) as [[nm c]|] eqn:Ei; [|apply nth_error_None in Ei; lia].
      destruct (nth_error (g_spots (t_gfx s)) j) as [[nm' c']|] eqn:Ej; [|discriminate]. cbn in Hj. injection Hj as <-.
      destruct (H1 _ _ _ Ei) as (I1 & I2 & _). destruct (H1 _ _ _ Ej) as (J1 & J2 & _).
      rewrite I2 in J2. injection J2 as <-. lia.
    - intros n' p' b' s' H'. exact (proj2 (run_spots _ _ _ _ _ _ _ H1 H')).
  Qed.

  (** defining one: a new name gets the next number and its components, each
      byte capped at 100; a known name is an error and changes nothing else *)
  Theorem C29_add n nm c m y k s s' : failed s = false -> exec (S n) (AddSpotColor nm c m y k) s = Some s' ->
    match assoc nm (g_spots (t_gfx s)) with
    | None => g_spots (t_gfx s') = g_spots (t_gfx s) ++
        [(nm, mk_spot (Z.of_nat (List.length (g_spots (t_gfx s))) + 1) (Z.min 100 c) (Z.min 100 m) (Z.min 100 y) (Z.min 100 k))] /\ failed s' = false
    | Some _ => s' = force_err (ESpotDup nm) s
    end.
  Proof.
    intros Hf HE. cbn in HE. injection HE as <-. unfold add_spot. rewrite Hf.
    destruct (assoc nm (g_spots (t_gfx s))); [reflexivity|]. cbn. split; [|exact Hf].
    assert (B : forall v, byte_bound v = Z.min 100 v) by (intros v; unfold byte_bound; destruct (Z.gtb_spec v 100); lia).
    now rewrite !B.
  Qed.

  (** selecting one for drawing or filling: the operator names that color's
      number and the tint; it goes to the current page; no other color changes *)
  Definition spot_operator (cs sc : bytes) (id tint : Z) : bytes :=
    bs "/CS" ++ dec id ++ bs " " ++ cs ++ bs " " ++ f3 A (ndiv A (ofZ A (Z.min 100 tint)) (ofZ A 100)) ++ bs " " ++ sc.
  Theorem C29_select n nm t s : failed s = false ->
    (forall s', exec (S n) (SetDrawSpotColor nm t) s = Some s' ->
      match assoc nm (g_spots (t_gfx s)) with
      | Some c => c_str (g_draw (t_gfx s')) = spot_operator (bs "CS") (bs "SCN") (sp_id c) t /\ c_spot (g_draw (t_gfx s')) = Some nm /\
          g_fill (t_gfx s') = g_fill (t_gfx s) /\ g_text (t_gfx s') = g_text (t_gfx s) /\ failed s' = false
      | None => s' = force_err (ESpotUnknown nm) s
      end) /\
    (forall s', exec (S n) (SetFillSpotColor nm t) s = Some s' ->
      match assoc nm (g_spots (t_gfx s)) with
      | Some c => c_str (g_fill (t_gfx s')) = spot_operator (bs "cs") (bs "scn") (sp_id c) t /\ c_spot (g_fill (t_gfx s')) = Some nm /\
          g_draw (t_gfx s') = g_draw (t_gfx s) /\ g_text (t_gfx s') = g_text (t_gfx s) /\ failed s' = false
      | None => s' = force_err (ESpotUnknown nm) s
      end) /\
    (forall s', exec (S n) (SetTextSpotColor nm t) s = Some s' ->
      match assoc nm (g_spots (t_gfx s)) with
      | Some c => c_str (g_text (t_gfx s')) = spot_operator (bs "cs") (bs "scn") (sp_id c) t /\ c_spot (g_text (t_gfx s')) = Some nm /\
          g_draw (t_gfx s') = g_draw (t_gfx s) /\ g_fill (t_gfx s') = g_fill (t_gfx s) /\ failed s' = false
      | None => s' = force_err (ESpotUnknown nm) s
      end).
  Proof.
    intros Hf. assert (B : forall v, byte_bound v = Z.min 100 v) by (intros v; unfold byte_bound; destruct (Z.gtb_spec v 100); lia).
    unfold spot_operator. repeat split; intros s' HE; cbn in HE; injection HE as <-;
      unfold set_draw_spot, set_fill_spot, set_text_spot, get_spot; rewrite Hf; (destruct (assoc nm (g_spots (t_gfx s))); [|reflexivity]);
      rewrite ?eop_gfx, ?eop_failed; cbn; unfold spot_str; rewrite B; auto.
  Qed.

  (** The page a flat program is on has the colors of the document, RGB or
      spot, in force for drawing and filling: a color once selected is the one
      what follows is drawn with, on this page and on the pages after it. *)
  Theorem C29_in_force n p k o w h m b s : okp (A := A) flat p ->
    run n p (init (A := A) k o w h m) = Some (b, s) -> failed s = false -> l_state (t_life s) = 2 -> (1 <= pageno s)%nat ->
    r_stroke (page_look (ops_of s (pageno s))) = c_str (g_draw (t_gfx s)) /\
    r_fill (page_look (ops_of s (pageno s))) = c_str (g_fill (t_gfx s)).
  Proof.
    intros Hp H Hf H2 Hpg.
    assert (HS : sinv 0 s).
    { refine (proj1 (proj1 (y_run 0 core_font asm n p _ b s Hp _ _ H))).
      - unfold init. destruct (if beqb o (bs "P") then _ else _). repeat split; discriminate.
      - unfold init. destruct (if beqb o (bs "P") then _ else _). unfold sinv. cbn. repeat split; try lia. }
    destruct HS as (P1 & _ & P3 & P4). destruct (P4 ltac:(lia) Hf H2) as (pg & g & G1 & G2 & (_ & G4 & G3 & _)).
    unfold page_look, ops_of. rewrite G1, G2. auto.
  Qed.
End Props.

(** C28, the gray operator, for IEEE doubles (whatever %.3f prints) *)
Theorem C28_gray cos sin tan pi f3 core_font asm n r g b (s : st (ieee cos sin tan pi f3)) s' :
  let r' := clamp 0 255 r in let g' := clamp 0 255 g in let b' := clamp 0 255 b in
  (exec core_font asm (S n) (SetDrawColor r g b) s = Some s' ->
     c_str (g_draw (t_gfx s')) = rgb_operator (A := ieee cos sin tan pi f3) r' g' b' (bs "G") (bs "RG")) /\
  (exec core_font asm (S n) (SetFillColor r g b) s = Some s' ->
     c_str (g_fill (t_gfx s')) = rgb_operator (A := ieee cos sin tan pi f3) r' g' b' (bs "g") (bs "rg")) /\
  (exec core_font asm (S n) (SetTextColor r g b) s = Some s' ->
     c_str (g_text (t_gfx s')) = rgb_operator (A := ieee cos sin tan pi f3) r' g' b' (bs "g") (bs "rg")).
Proof.
  cbv zeta. assert (G : forall gray full, c_str (rgb (A := ieee cos sin tan pi f3) r g b gray full) =
    rgb_operator (A := ieee cos sin tan pi f3) (clamp 0 255 r) (clamp 0 255 g) (clamp 0 255 b) gray full).
  { intros gray full. unfold rgb, rgb_operator. cbv zeta. cbn [c_str]. rewrite !comp_clamp.
    change (neq (ieee cos sin tan pi f3)) with SFeqb. change (ndiv (ieee cos sin tan pi f3)) with (SFdiv 53 1024).
    change (ofZ (ieee cos sin tan pi f3)) with f64. rewrite gray_level by (unfold clamp; lia).
    destruct (Z.eqb_spec (clamp 0 255 r) (clamp 0 255 g)) as [->|]; reflexivity. }
  repeat split; intros HE; cbn in HE; injection HE as <-; unfold set_draw_color, set_fill_color, set_text_color;
    rewrite ?eop_gfx; apply G.
Qed.

Print Assumptions C28_clamped.
Print Assumptions C28_gray.
Print Assumptions C28_text_color.
Print Assumptions C29_table.
Print Assumptions C29_add.
Print Assumptions C29_select.
Print Assumptions C29_in_force.

(** *** Examples and the refutation *)
Definition spot_ex : list (call arithZ) :=
  [AddSpotColor (bs "Ink") 0 100 200 3; AddSpotColor (bs "Gold") 1 2 3 4; AddPage; SetFont (A := arithZ) (bs "Arial") [] 12;
   SetDrawSpotColor (bs "Gold") 100; SetFillColor 0 0 0].
Example C29_table_ex : after spot_ex (fun s => (g_spots (t_gfx s), rgb_of (g_fill (t_gfx s)), r_stroke (page_look (ops_of s 1)))) =
  Some ([(bs "Ink", mk_spot 1 0 100 100 3); (bs "Gold", mk_spot 2 1 2 3 4)], (0, 0, 0), bs "/CS2 CS 1 SCN").
Proof. vm_compute. reflexivity. Qed.
Example C29_twice : after (spot_ex ++ [AddSpotColor (bs "Ink") 1 1 1 1]) errof = Some (Some (ESpotDup (bs "Ink"))).
Proof. vm_compute. reflexivity. Qed.
Example C29_flat : okp (A := arithZ) flat (calls spot_ex).
Proof. unfold spot_ex. cbn [app calls okp okc flat]. repeat (split; try exact I). Qed.
Example C28_text_ex : after (spot_ex ++ [SetTextColor 300 255 255; Text (A := arithZ) 1 2 (bs "hello")]) (fun s => (rgb_of (g_text (t_gfx s)), shows (ops_of s 1))) =
  Some ((255, 255, 255), [(bs "hello", bs "1 g")]).
Proof. vm_compute. reflexivity. Qed.

(** C29 in full is false: text written after SetTextSpotColor keeps the fill
    color. *)
Theorem C29_text_refuted :
  after (spot_ex ++ [SetTextSpotColor (bs "Ink") 100; Text (A := arithZ) 1 2 (bs "hello")])
    (fun s => (c_str (g_text (t_gfx s)), shows (ops_of s 1))) = Some (bs "/CS1 cs 1 scn", [(bs "hello", bs "0 g")]).
Proof. vm_compute. reflexivity. Qed.
