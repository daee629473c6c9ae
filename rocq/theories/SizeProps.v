(** C47, C48 and C49: image sizes, SubWrite and units, over the real numbers. *)
From Coq Require Import Reals Lra Psatz String.
From Verif Require Import Base TextModel ApiModel ApiProofs ApiErr ApiQuiet ApiTurn ApiLife ApiTrack ApiInst ApiBreakProps TransProps.
Local Open Scope string_scope.
Local Open Scope list_scope.
Local Open Scope R_scope.

Lemma arithR_ops : num arithR = R /\ ofZ arithR = IZR /\ nadd arithR = Rplus /\ nsub arithR = Rminus /\ nmul arithR = Rmult /\ ndiv arithR = Rdiv /\
  nopp arithR = Ropp /\ nlt arithR = Rltb /\ neq arithR = Reqb.
Proof. repeat split. Qed.
Ltac to_R :=
  change (num arithR) with R in *; change (ofZ arithR) with IZR in *; change (nadd arithR) with Rplus in *; change (nsub arithR) with Rminus in *;
  change (nmul arithR) with Rmult in *; change (ndiv arithR) with Rdiv in *; change (nopp arithR) with Ropp in *; change (nlt arithR) with Rltb in *;
  change (neq arithR) with Reqb in *.
Ltac dec_R :=
  repeat match goal with
  | |- context [Reqb ?a ?b] => (rewrite (Reqb_true a b) by lra) || (rewrite (Reqb_false a b) by lra)
  | |- context [Rltb ?a ?b] => (rewrite (Rltb_true a b) by lra) || (rewrite (Rltb_false a b) by lra)
  end; cbn [andb orb negb].

(** ** Images *)
Section Image.
  (** Width def.go:247-249 and Height def.go:252-254 of ImageInfoType; [scale] is the
      scale factor of the document (info.scale = f.k, fpdf.go:3137 RegisterImageOptionsReader) *)
  Definition info_width (iw dpi scale : R) : R := iw / (scale * dpi / 72).
  Definition info_height (ih dpi scale : R) : R := ih / (scale * dpi / 72).

  Variables (iw ih dpi k : R).
  Hypotheses (Hiw : 0 < iw) (Hih : 0 < ih) (Hdpi : 0 < dpi) (Hk : 0 < k).

  (** the resolution, in pixels per inch, at which [px] pixels take a length [v]
      (k points to the unit, 72 points to the inch) *)
  Definition resolution (px v : R) : R := px / (v * k / 72).
  (** one dimension as the caller gave it, the other not being derived from it:
      positive as it is, -1 the resolution of the image, other negative values
      their absolute value in dpi *)
  Definition length_asked (px a v : R) : Prop :=
    (0 < a -> v = a) /\ (a = -1 -> 0 < v /\ resolution px v = dpi) /\ (a < 0 -> a <> -1 -> 0 < v /\ resolution px v = - a).

  Lemma asked_ok px a : 0 < px -> a <> 0 ->
    length_asked px a (let a := if Reqb a (Ropp 1) then - dpi else a in if Rltb a 0 then - px * 72 / a / k else a).
  Proof.
    intros Hp Ha. unfold length_asked, resolution. repeat split; intros; dec_R; cbv zeta; try reflexivity; dec_R.
    - apply Rmult_lt_0_compat; [|now apply Rinv_0_lt_compat]. unfold Rdiv. replace (- px * 72 * / - dpi) with (px * 72 * / dpi) by (field; lra).
      apply Rmult_lt_0_compat; [lra|now apply Rinv_0_lt_compat].
    - field. repeat split; lra.
    - apply Rmult_lt_0_compat; [|now apply Rinv_0_lt_compat]. replace (- px * 72 / a) with (px * 72 * / - a) by (field; lra).
      apply Rmult_lt_0_compat; [lra|apply Rinv_0_lt_compat; lra].
    - field. repeat split; lra.
  Qed.

  (** C47: the size of an image placed with the dimensions a and b. *)
  Theorem C47_size a b : forall w h, image_size (A := arithR) iw ih dpi k a b = (w, h) ->
    (a = 0 -> b = 0 -> resolution iw w = 96 /\ resolution ih h = 96) /\
    (a <> 0 -> b <> 0 -> length_asked iw a w /\ length_asked ih b h) /\
    (a = 0 -> b <> 0 -> length_asked ih b h /\ w / h = iw / ih) /\
    (a <> 0 -> b = 0 -> length_asked iw a w /\ w / h = iw / ih) /\
    0 < w /\ 0 < h.
  Proof.
    intros w h HS. unfold image_size in HS. to_R.
    assert (P : forall px c, 0 < px -> c <> 0 -> 0 < (let c := if Reqb c (Ropp 1) then - dpi else c in if Rltb c 0 then - px * 72 / c / k else c)).
    { intros px c Hp Hc. destruct (asked_ok px c Hp Hc) as (Q1 & Q2 & Q3).
      destruct (Rtotal_order c 0) as [L|[E|G]]; [|contradiction|rewrite Q1; lra].
      destruct (Req_dec c (-1)) as [E|N]; [apply Q2; exact E|apply Q3; auto]. }
    assert (Z0 : forall px, (let c := if Reqb 0 (Ropp 1) then - dpi else 0 in if Rltb c 0 then - px * 72 / c / k else c) = 0).
    { intros px. cbv zeta. dec_R. reflexivity. }
    assert (H96 : forall px, 0 < px -> - px * 72 / (Ropp 96) / k = px * 72 / 96 / k) by (intros; field; lra).
    assert (RS : forall px, 0 < px -> resolution px (px * 72 / 96 / k) = 96) by (intros; unfold resolution; field; lra).
    assert (PS : forall px, 0 < px -> 0 < px * 72 / 96 / k) by (intros; apply Rmult_lt_0_compat; [lra|now apply Rinv_0_lt_compat]).
    destruct (Req_dec a 0) as [Ea|Na], (Req_dec b 0) as [Eb|Nb].
    - subst a b. rewrite (Reqb_true 0 0 eq_refl) in HS. cbn [andb] in HS. cbv beta iota zeta in HS.
      rewrite !(Reqb_false (Ropp 96) (Ropp 1)) in HS by lra. rewrite !(Rltb_true (Ropp 96) 0) in HS by lra.
      rewrite !H96 in HS by assumption. pose proof (PS iw Hiw). pose proof (PS ih Hih).
      rewrite !Reqb_false in HS by lra. injection HS as <- <-.
      split; [intros _ _; split; now apply RS|]. repeat split; lra.
    - subst a. rewrite (Reqb_true 0 0 eq_refl), (Reqb_false b 0) in HS by assumption. cbn [andb] in HS. cbv beta iota in HS.
      pose proof (asked_ok ih b Hih Nb) as Q. pose proof (P ih b Hih Nb) as Pb. specialize (Z0 iw). cbv zeta in *.
      set (h' := if Rltb (if Reqb b (Ropp 1) then - dpi else b) 0 then _ else _) in *. rewrite Z0 in HS. clearbody h'.
      rewrite (Reqb_true 0 0 eq_refl), (Reqb_false h' 0) in HS by lra. injection HS as <- <-.
      assert (0 < h' * iw / ih) by (apply Rmult_lt_0_compat; [nra|now apply Rinv_0_lt_compat]).
      split; [lra|]. split; [lra|]. split; [intros X Y; try lra; (split; [exact Q|field; lra])|]. split; [intros X Y; try lra; (split; [exact Q|field; lra])|]. split; lra.
    - subst b. rewrite (Reqb_false a 0) in HS by assumption. cbn [andb] in HS. cbv beta iota in HS.
      pose proof (asked_ok iw a Hiw Na) as Q. pose proof (P iw a Hiw Na) as Pa. specialize (Z0 ih). cbv zeta in *.
      set (w' := if Rltb (if Reqb a (Ropp 1) then - dpi else a) 0 then _ else _) in *. rewrite Z0 in HS. clearbody w'.
      rewrite (Reqb_true 0 0 eq_refl), (Reqb_false w' 0) in HS by lra. injection HS as <- <-.
      assert (0 < w' * ih / iw) by (apply Rmult_lt_0_compat; [nra|now apply Rinv_0_lt_compat]).
      split; [lra|]. split; [lra|]. split; [intros X Y; try lra; (split; [exact Q|field; lra])|]. split; [intros X Y; try lra; (split; [exact Q|field; lra])|]. split; lra.
    - rewrite (Reqb_false a 0) in HS by assumption. cbn [andb] in HS. cbv beta iota in HS.
      pose proof (asked_ok iw a Hiw Na) as Q. pose proof (P iw a Hiw Na) as Pa.
      pose proof (asked_ok ih b Hih Nb) as Q2. pose proof (P ih b Hih Nb) as Pb. cbv zeta in *.
      set (w' := if Rltb (if Reqb a (Ropp 1) then - dpi else a) 0 then _ else _) in *.
      set (h' := if Rltb (if Reqb b (Ropp 1) then - dpi else b) 0 then _ else _) in *. clearbody w' h'.
      rewrite (Reqb_false w' 0) in HS by lra. rewrite (Reqb_false h' 0) in HS by lra. injection HS as <- <-.
      split; [lra|]. split; [intros X Y; split; [exact Q|exact Q2]|]. repeat split; lra.
  Qed.
  (** a dimension of -1 takes what Width and Height of the image report *)
  Theorem C47_extent : image_size (A := arithR) iw ih dpi k (-1) (-1) = (info_width iw dpi k, info_height ih dpi k).
  Proof.
    unfold image_size. to_R. dec_R. cbv beta iota zeta. dec_R.
    assert (E : forall px, - px * 72 / - dpi / k = px / (k * dpi / 72)) by (intros; field; lra).
    assert (P : forall px, 0 < px -> 0 < px / (k * dpi / 72)).
    { intros px Hp. apply Rmult_lt_0_compat; [exact Hp|]. apply Rinv_0_lt_compat. apply Rmult_lt_0_compat; [nra|lra]. }
    pose proof (P iw Hiw). pose proof (P ih Hih). rewrite !E. dec_R. reflexivity.
  Qed.
End Image.

Section ImagePlace.
  Context (core_font : bytes -> bytes -> fontdef + bytes) (asm : st arithR -> option (bytes * option error)).
  Notation exec := (exec core_font asm).
  Implicit Types s : st arithR.
  (** The image, which PDF paints in the unit square, fills the rectangle with
      the upper left corner (x, y) and the size w by h: each point of the square
      goes to the point of the page at the same fractions. *)
  Theorem C47_place n iw ih dpi id x y a b l u s s' : 0 <= x -> l_state (t_life s) = 2%Z -> (pageno s < List.length (l_pages (t_life s)))%nat ->
    exec (S n) (ImageOut (A := arithR) iw ih dpi id x y a b false false l u) s = Some s' ->
    let '(w, h) := image_size (A := arithR) iw ih dpi (x_k (t_geo s)) a b in
    exists m, ops_of s' (pageno s) = ops_of s (pageno s) ++ [Save; m; Paint (A := arithR) (bs "/I" ++ id ++ bs " Do") []; Restore] /\
      forall p q, by_matrix m (p, q) = pdf_of s (x + p * w, y + (1 - q) * h).
  Proof.
    intros Hx H2 Hl HE. cbn [ApiModel.exec step] in HE. unfold image_out in HE.
    destruct (image_size _ _ _ _ _ _) as [w h]. injection HE as <-. unfold image_place. cbv zeta. to_R.
    rewrite (Rltb_false x 0) by assumption. eexists. split.
    - destruct (_ || _); rewrite ?link_ops, (emit_ops asm) by assumption; now rewrite Nat.eqb_refl.
    - intros p q. unfold by_matrix, pdf_of. cbn [fst snd]. apply f_equal2; cbn; ring.
  Qed.
End ImagePlace.

(** ** SubWrite *)
Section SubWrite.
  Context {A : arith}.
  (** a program followed by another *)
  Fixpoint seq_prog (p : prog A) (k : obs A -> prog A) (o : obs A) : prog A :=
    match p with Done _ => k o | Step c f => Step c (fun o' => seq_prog (f o') k o') end.
  (** SubWrite subwrite.go:16-36, called where the getters return [o]; [W] is what
      f.write does, of which nothing is assumed *)
  Definition sub_write (W : prog A) (size off : num A) (o : obs A) : prog A :=
    match o_err o with
    | Some _ => Done true
    | None =>
        let old := f_pt (o_fnt o) in
        Step (SetFontSize size) (fun o =>
        let off := nadd A (nmul A (ndiv A (nsub A size old) (x_k (o_geo o))) (ndiv A (ofZ A 3) (ofZ A 10))) (ndiv A off (x_k (o_geo o))) in
        Step (SetXY (x_x (o_geo o)) (nsub A (x_y (o_geo o)) off)) (fun o =>
        seq_prog W (fun o =>
          Step (SetXY (x_x (o_geo o)) (nadd A (x_y (o_geo o)) off)) (fun _ =>
          Step (SetFontSize old) (fun _ => Done true))) o))
    end.
End SubWrite.

Section SubWriteProps.
  Context (core_font : bytes -> bytes -> fontdef + bytes) (asm : st arithR -> option (bytes * option error)).
  Notation exec := (exec core_font asm).
  Notation run := (run core_font asm).
  Implicit Types s : st arithR.

  Lemma run_seq n p k s r : run n (seq_prog p k (observe s)) s = Some r ->
    exists b s', run n p s = Some (b, s') /\ run n (k (observe s')) s' = Some r.
  Proof.
    revert s. induction p as [b|c f IH]; intros s H.
    - exists b, s. split; [reflexivity|exact H].
    - unfold ApiModel.run in *. cbn [seq_prog run_with] in *. destruct (exec n c s) as [s1|]; [|discriminate]. now apply IH.
  Qed.

  (** C48: whatever is written, however many lines and pages it takes: the font
      size is the one before; and if what is written moves the baseline by [d],
      then so does SubWrite, as long as the shifted positions are on the page.
      In particular with d = 0 the baseline is restored. *)
  Theorem C48_restored n W size off s b s' : failed s = false -> 0 < x_k (t_geo s) ->
    run (S n) (sub_write (A := arithR) W size off (observe s)) s = Some (b, s') ->
    f_pt (t_fnt s') = f_pt (t_fnt s) /\ 
    exists s1 b2 s2, run (S n) W s1 = Some (b2, s2) /\ f_pt (t_fnt s1) = size /\
      let rise := (size - f_pt (t_fnt s)) / x_k (t_geo s) * (3 / 10) + off / x_k (t_geo s) in
      (0 <= x_x (t_geo s) -> x_x (t_geo s1) = x_x (t_geo s)) /\
      (0 <= x_y (t_geo s) - rise -> x_y (t_geo s1) = x_y (t_geo s) - rise) /\
      (0 <= x_x (t_geo s2) -> x_x (t_geo s') = x_x (t_geo s2)) /\
      (0 <= x_y (t_geo s2) + rise -> x_y (t_geo s') = x_y (t_geo s2) + rise) /\
      (forall d, 0 <= x_y (t_geo s) - rise -> 0 <= x_y (t_geo s) + d -> x_y (t_geo s2) = x_y (t_geo s1) + d -> x_y (t_geo s') = x_y (t_geo s) + d) /\
      f_size (t_fnt s') = f_pt (t_fnt s') / x_k (t_geo s2).
  Proof.
    intros Hf Hk H. unfold sub_write in H. unfold failed in Hf. unfold observe at 1 in H. cbn [o_err] in H.
    change (o_err (observe s)) with (errof s) in H. destruct (errof s) eqn:E; [discriminate Hf|].
    unfold ApiModel.run in H. cbn [run_with ApiModel.exec step] in H.
    set (s0 := set_font_size size s) in H.
    assert (G0 : t_geo s0 = t_geo s) by (unfold s0, set_font_size; rewrite eop_geo; reflexivity).
    change (o_geo (observe s0)) with (t_geo s0) in H. change (f_pt (o_fnt (observe s))) with (f_pt (t_fnt s)) in H. rewrite G0 in H.
    to_R. set (rise := (size - f_pt (t_fnt s)) / x_k (t_geo s) * (3 / 10) + off / x_k (t_geo s)) in *.
    set (s1 := set_xy (A := arithR) (x_x (t_geo s)) (x_y (t_geo s) - rise) s0) in H.
    match type of H with run_with _ ?p ?x = ?r => change (run (S n) p x = r) in H end.
    apply run_seq in H as (b2 & s2 & HW & H). unfold ApiModel.run in H. cbn [run_with ApiModel.exec step] in H.
    change (o_geo (observe s2)) with (t_geo s2) in H. set (s3 := set_xy (A := arithR) (x_x (t_geo s2)) (x_y (t_geo s2) + rise) s2) in H.
    injection H as _ <-.
    assert (XY : forall x y (t : st arithR), (0 <= x -> x_x (t_geo (set_xy (A := arithR) x y t)) = x) /\ (0 <= y -> x_y (t_geo (set_xy (A := arithR) x y t)) = y) /\
        x_k (t_geo (set_xy (A := arithR) x y t)) = x_k (t_geo t) /\ t_fnt (set_xy (A := arithR) x y t) = t_fnt t).
    { intros x y t. unfold set_xy, set_x, set_y, nge. to_R. cbn -[Rltb Reqb]. repeat split; intros Hz.
      all: assert (C : Rltb 0 x || Reqb x 0 = true \/ ~ 0 <= x) by (unfold Rltb, Reqb; destruct (Rlt_dec 0 x); [now left|]; destruct (Req_EM_T x 0); [now left|right; lra]).
      all: assert (C2 : Rltb 0 y || Reqb y 0 = true \/ ~ 0 <= y) by (unfold Rltb, Reqb; destruct (Rlt_dec 0 y); [now left|]; destruct (Req_EM_T y 0); [now left|right; lra]).
      - destruct C as [-> |C]; [reflexivity|contradiction].
      - destruct C2 as [-> |C2]; [reflexivity|contradiction]. }
    unfold set_font_size at 1 2 3 4 5 6. rewrite !eop_fnt, !eop_geo.
    cbn [t_fnt t_geo on_fnt f_pt f_size sf_size sf_pt]. split; [reflexivity|].
    exists s1, b2, s2. split; [exact HW|].
    destruct (XY (x_x (t_geo s)) (x_y (t_geo s) - rise) s0) as (X1 & X2 & X3 & X4). fold s1 in X1, X2, X3, X4.
    destruct (XY (x_x (t_geo s2)) (x_y (t_geo s2) + rise) s2) as (Y1 & Y2 & Y3 & Y4). fold s3 in Y1, Y2, Y3, Y4.
    split; [rewrite X4; unfold s0, set_font_size; rewrite eop_fnt; reflexivity|].
    cbv zeta. fold rise. repeat split; auto.
    - intros d D1 D2 D3. rewrite D3, (X2 D1) in Y2. change (x_y (t_geo s3) = x_y (t_geo s) + d). rewrite Y2; [to_R; ring|]. replace (x_y (t_geo s) - rise + d + rise) with (x_y (t_geo s) + d) by ring. exact D2.
  Qed.
End SubWriteProps.

(** C48 in full is false: a superscript that rises above the upper edge of
    the page is taken for a position relative to the lower edge.  Writing
    nothing moves the baseline to the bottom. *)
Theorem C48_top_refuted :
  option_map (fun r : bool * st arithZ => x_y (t_geo (snd r)) : Z)
    (run fonts_ex (asm_ex arithZ) 9%nat (Step AddPage (fun _ => Step (SetXY (A := arithZ) 10%Z 5%Z) (fun o => sub_write (A := arithZ) (Done true) 12%Z 10%Z o))) doc_ex)
  = Some 305%Z.
Proof. vm_compute. reflexivity. Qed.
Example C48_ex :
  option_map (fun r : bool * st arithZ => (x_y (t_geo (snd r)) : Z, f_pt (t_fnt (snd r)) : Z))
    (run fonts_ex (asm_ex arithZ) 9%nat (Step AddPage (fun _ => Step (SetXY (A := arithZ) 10%Z 50%Z) (fun o => sub_write (A := arithZ) (Step (Ln (A := arithZ) 7%Z) (fun _ => Done true)) 8%Z 10%Z o))) doc_ex)
  = Some (57, 12)%Z.
Proof. vm_compute. reflexivity. Qed.

(** ** Units *)
(** PointConvert def.go:223-225, PointToUnitConvert def.go:228-230, UnitToPointConvert def.go:236-238 *)
Definition point_convert (k pt : R) : R := pt / k.
Definition unit_to_point (k u : R) : R := u * k.

(** the scale factor, fpdf.go:124-135 *)
Definition unit_k (u : bytes) : option R :=
  if beqb u (bs "pt") || beqb u (bs "point") then Some 1
  else if beqb u (bs "mm") then Some (72 / (254 / 10))
  else if beqb u (bs "cm") then Some (72 / (254 / 100))
  else if beqb u (bs "in") || beqb u (bs "inch") then Some 72 else None.
(** stdPageSizes, fpdf.go:138-147 *)
Definition std_sizes : list (bytes * (R * R)) :=
  [(bs "a3", (84189 / 100, 119055 / 100)); (bs "a4", (59528 / 100, 84189 / 100)); (bs "a5", (42094 / 100, 59528 / 100));
   (bs "a6", (29764 / 100, 42094 / 100)); (bs "a2", (119055 / 100, 168378 / 100)); (bs "a1", (168378 / 100, 238394 / 100));
   (bs "letter", (612, 792)); (bs "legal", (612, 1008)); (bs "tabloid", (792, 1224))].
Inductive new_error := BadUnit (u : bytes) | BadSize (sz : bytes) | BadOrientation (o : bytes).
Definition or_default (d b : bytes) : bytes := match b with [] => d | _ => b end.
(** getpagesizestr fpdf.go:3478-3495 *)
Definition page_size_str (k : R) (sz : bytes) : option (R * R) :=
  option_map (fun s => (fst s / k, snd s / k)) (assoc (lower sz) std_sizes).
(** fpdfNew fpdf.go:60-218 as far as units and sizes go: the defaults, the scale
    factor, the page size, the orientation, then [init] with the margin *)
Definition new_doc (orient unit sz : bytes) (wd ht : R) : st arithR + new_error :=
  let orient := match orient with [] => bs "p" | _ => lower orient end in
  let unit := or_default (bs "mm") unit in let sz := or_default (bs "A4") sz in
  match unit_k unit with
  | None => inr (BadUnit unit)
  | Some k =>
      match (if Rltb 0 wd && Rltb 0 ht then Some (wd, ht) else page_size_str k sz) with
      | None => inr (BadSize (lower sz))
      | Some (w, h) =>
          if beqb orient (bs "p") || beqb orient (bs "portrait") then inl (init (A := arithR) k (bs "P") w h (2835 / 100 / k))
          else if beqb orient (bs "l") || beqb orient (bs "landscape") then inl (init (A := arithR) k (bs "L") w h (2835 / 100 / k))
          else inr (BadOrientation orient)
      end
  end.

(** *** Specification: a length of 1 in each unit, in points *)
Definition points_in (u : bytes) : option R :=
  assoc u [(bs "pt", 1); (bs "point", 1); (bs "in", 72); (bs "inch", 72); (bs "cm", 72 / (254 / 100)); (bs "mm", 72 / (254 / 10)); ([], 72 / (254 / 10))].

Theorem C49_inverse k v : k <> 0 -> unit_to_point k (point_convert k v) = v /\ point_convert k (unit_to_point k v) = v.
Proof. intros. unfold unit_to_point, point_convert. split; field; assumption. Qed.

Lemma unit_points u : unit_k (or_default (bs "mm") u) = points_in u.
Proof.
  unfold or_default, points_in. destruct u as [|c u]; [reflexivity|]. unfold unit_k. cbn [assoc].
  destruct (beqb (c :: u) (bs "pt")) eqn:E1; [reflexivity|]. destruct (beqb (c :: u) (bs "point")) eqn:E2; [reflexivity|].
  destruct (beqb (c :: u) (bs "in")) eqn:E3; [apply beqb_eq in E3; rewrite E3; reflexivity|].
  destruct (beqb (c :: u) (bs "inch")) eqn:E4; [apply beqb_eq in E4; rewrite E4; reflexivity|].
  destruct (beqb (c :: u) (bs "cm")) eqn:E5; [apply beqb_eq in E5; rewrite E5; reflexivity|].
  destruct (beqb (c :: u) (bs "mm")) eqn:E6; reflexivity.
Qed.
Lemma points_pos u k : points_in u = Some k -> 0 < k.
Proof.
  unfold points_in. cbn [assoc]. repeat (destruct (beqb u _); [intros [= <-]; lra|]). discriminate.
Qed.

(** the page in points: width and height as the reader of the PDF sees them *)
Definition page_points (s : st arithR) : R * R := (x_wpt (t_geo s), x_hpt (t_geo s)).
Definition oriented (o : bytes) (w h : R) : R * R := if beqb o (bs "L") then (h, w) else (w, h).
Lemma init_view k o w h m : o = bs "P" \/ o = bs "L" -> let s := init (A := arithR) k o w h m in
  page_points s = (fst (oriented o w h) * k, snd (oriented o w h) * k) /\ x_k (t_geo s) = k /\ x_w (t_geo s) = fst (oriented o w h) /\ x_h (t_geo s) = snd (oriented o w h) /\
  x_lm (t_geo s) = m /\ x_tm (t_geo s) = m /\ x_rm (t_geo s) = m /\ x_bm (t_geo s) = 2 * m /\ errof s = None /\ x_defo (t_geo s) = o.
Proof. intros [-> | ->]; repeat split. Qed.

(** C49: a document is created for every known unit, page size name or positive
    size, and orientation; the page has, in points, the size of the table or the
    size asked for converted to points, width and height exchanged in landscape;
    and the margins are one centimeter, near enough (28.35 points), in every unit. *)
Theorem C49_page orient unit sz wd ht k :
  points_in unit = Some k ->
  forall o, assoc (lower orient) [([], bs "P"); (bs "p", bs "P"); (bs "portrait", bs "P"); (bs "l", bs "L"); (bs "landscape", bs "L")] = Some o ->
  forall P, (if Rltb 0 wd && Rltb 0 ht then Some (wd * k, ht * k) else assoc (lower (or_default (bs "a4") sz)) std_sizes) = Some P ->
  exists s, new_doc orient unit sz wd ht = inl s /\ errof s = None /\ x_k (t_geo s) = k /\
    page_points s = oriented o (fst P) (snd P) /\
    x_w (t_geo s) * k = fst (oriented o (fst P) (snd P)) /\ x_h (t_geo s) * k = snd (oriented o (fst P) (snd P)) /\
    x_lm (t_geo s) * k = 2835 / 100 /\ x_rm (t_geo s) * k = 2835 / 100 /\ x_tm (t_geo s) * k = 2835 / 100 /\ x_bm (t_geo s) * k = 2 * (2835 / 100).
Proof.
  intros Hu o Ho P HP. pose proof (points_pos _ _ Hu) as Hk.
  unfold new_doc. rewrite unit_points, Hu.
  assert (SZ : exists w h, (if Rltb 0 wd && Rltb 0 ht then Some (wd, ht) else page_size_str k (or_default (bs "A4") sz)) = Some (w, h) /\ w * k = fst P /\ h * k = snd P).
  { destruct (Rltb 0 wd && Rltb 0 ht).
    - injection HP as <-. exists wd, ht. auto.
    - unfold page_size_str. replace (lower (or_default (bs "A4") sz)) with (lower (or_default (bs "a4") sz)) by (destruct sz; reflexivity).
      rewrite HP. destruct P as [pw ph]. cbn. exists (pw / k), (ph / k). repeat split; field; lra. }
  destruct SZ as (w & h & -> & Ew & Eh).
  assert (EO : exists o', (if beqb (match orient with [] => bs "p" | _ => lower orient end) (bs "p") || beqb (match orient with [] => bs "p" | _ => lower orient end) (bs "portrait")
      then inl (init (A := arithR) k (bs "P") w h (2835 / 100 / k))
      else if beqb (match orient with [] => bs "p" | _ => lower orient end) (bs "l") || beqb (match orient with [] => bs "p" | _ => lower orient end) (bs "landscape")
      then inl (init (A := arithR) k (bs "L") w h (2835 / 100 / k)) else inr (BadOrientation (match orient with [] => bs "p" | _ => lower orient end))) = inl (init (A := arithR) k o' w h (2835 / 100 / k))
      /\ o' = o /\ (o' = bs "P" \/ o' = bs "L")).
  { destruct orient as [|c l]; [cbn in Ho; injection Ho as <-; exists (bs "P"); repeat split; now left|].
    set (t := lower (c :: l)) in *. assert (Ht : beqb t [] = false) by reflexivity. clearbody t. cbn [assoc] in Ho. rewrite Ht in Ho.
    destruct (beqb t (bs "p")); [injection Ho as <-; exists (bs "P"); repeat split; now left|].
    destruct (beqb t (bs "portrait")); [injection Ho as <-; exists (bs "P"); repeat split; now left|]. cbn [orb].
    destruct (beqb t (bs "l")); [injection Ho as <-; exists (bs "L"); repeat split; now right|].
    destruct (beqb t (bs "landscape")); [injection Ho as <-; exists (bs "L"); repeat split; now right|discriminate Ho]. }
  destruct EO as (o' & -> & -> & HO).
  destruct (init_view k o w h (2835 / 100 / k) HO) as (V1 & V2 & V3 & V4 & V5 & V6 & V7 & V8 & V9 & V10).
  eexists. split; [reflexivity|]. rewrite V1, V2, V3, V4, V5, V6, V7, V8, V9.
  rewrite <- Ew, <- Eh. unfold oriented. destruct (beqb o (bs "L")); cbn [fst snd]; repeat split; field; lra.
Qed.
(** the same physical size in two units gives the same page, margins included *)
Theorem C49_same_page orient u1 u2 k1 k2 w1 h1 w2 h2 sz1 sz2 s1 s2 :
  points_in u1 = Some k1 -> points_in u2 = Some k2 -> 0 < w1 -> 0 < h1 -> w1 * k1 = w2 * k2 -> h1 * k1 = h2 * k2 ->
  new_doc orient u1 sz1 w1 h1 = inl s1 -> new_doc orient u2 sz2 w2 h2 = inl s2 -> page_points s1 = page_points s2.
Proof.
  intros U1 U2 W1 H1 EW EH D1 D2. pose proof (points_pos _ _ U1) as K1. pose proof (points_pos _ _ U2) as K2.
  assert (W2 : 0 < w2) by (apply (Rmult_lt_reg_r k2); [exact K2|nra]). assert (H2 : 0 < h2) by (apply (Rmult_lt_reg_r k2); [exact K2|nra]).
  unfold new_doc in D1, D2. rewrite unit_points in D1, D2. rewrite U1 in D1. rewrite U2 in D2.
  rewrite !Rltb_true in D1, D2 by assumption. cbn [andb] in D1, D2.
  set (t := match orient with [] => bs "p" | _ => lower orient end) in *. clearbody t.
  destruct (beqb t (bs "p") || beqb t (bs "portrait")).
  - injection D1 as <-. injection D2 as <-. destruct (init_view k1 (bs "P") w1 h1 (2835 / 100 / k1) (or_introl eq_refl)) as (-> & _).
    destruct (init_view k2 (bs "P") w2 h2 (2835 / 100 / k2) (or_introl eq_refl)) as (-> & _). cbn. now rewrite EW, EH.
  - destruct (beqb t (bs "l") || beqb t (bs "landscape")); [|discriminate D1].
    injection D1 as <-. injection D2 as <-. destruct (init_view k1 (bs "L") w1 h1 (2835 / 100 / k1) (or_intror eq_refl)) as (-> & _).
    destruct (init_view k2 (bs "L") w2 h2 (2835 / 100 / k2) (or_intror eq_refl)) as (-> & _). cbn. now rewrite EW, EH.
Qed.
(** anything else is refused *)
Theorem C49_refused orient unit sz wd ht : 
  (points_in unit = None -> exists e, new_doc orient unit sz wd ht = inr (BadUnit e)) /\
  (forall k, points_in unit = Some k -> ~ (0 < wd /\ 0 < ht) -> assoc (lower (or_default (bs "a4") sz)) std_sizes = None ->
     new_doc orient unit sz wd ht = inr (BadSize (lower (or_default (bs "a4") sz)))).
Proof.
  unfold new_doc. rewrite unit_points. split.
  - intros ->. eexists. reflexivity.
  - intros k -> Hn Hs. replace (Rltb 0 wd && Rltb 0 ht) with false.
    + unfold page_size_str. replace (lower (or_default (bs "A4") sz)) with (lower (or_default (bs "a4") sz)) by (destruct sz; reflexivity). now rewrite Hs.
    + symmetry. unfold Rltb. destruct (Rlt_dec 0 wd), (Rlt_dec 0 ht); try reflexivity. exfalso. auto.
Qed.

Print Assumptions C47_size.
Print Assumptions C47_extent.
Print Assumptions C47_place.
Print Assumptions C48_restored.
Print Assumptions C49_inverse.
Print Assumptions C49_page.
Print Assumptions C49_same_page.
Print Assumptions C49_refused.

Example C47_ex : image_size (A := arithR) 200 100 72 1 0 50 = (100, 50).
Proof. unfold image_size. to_R. dec_R. cbv beta iota zeta. dec_R. apply f_equal2; lra. Qed.
Example C49_ex : exists s, new_doc [] (bs "in") (bs "Letter") 0 0 = inl s /\ page_points s = (612, 792).
Proof.
  destruct (C49_page [] (bs "in") (bs "Letter") 0 0 72 eq_refl (bs "P") eq_refl (612, 792)) as (s & H1 & _ & _ & H2 & _).
  - rewrite (Rltb_false 0 0) by lra. reflexivity.
  - exists s. split; [exact H1|exact H2].
Qed.
