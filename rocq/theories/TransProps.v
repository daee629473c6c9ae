(** C46: the geometry of the transformations, over the real numbers. *)
From Coq Require Import Reals Lra Psatz.
From Verif Require Import Base TextModel ApiModel ApiProofs ApiErr ApiQuiet ApiTurn ApiLife ApiTrack ApiBreakProps.
Local Open Scope list_scope.

(** the numbers of the API model as reals *)
Definition Rltb (a b : R) : bool := if Rlt_dec a b then true else false.
Definition Reqb (a b : R) : bool := if Req_EM_T a b then true else false.
Definition arithR : arith := mk_arith R IZR Rplus Rminus Rmult Rdiv Ropp Rltb Reqb cos sin tan PI (fun _ => []).

Lemma Reqb_false a b : a <> b -> Reqb a b = false.
Proof. unfold Reqb. now destruct (Req_EM_T a b). Qed.
Lemma Reqb_true a b : a = b -> Reqb a b = true.
Proof. unfold Reqb. now destruct (Req_EM_T a b). Qed.
Lemma Rltb_false a b : (b <= a)%R -> Rltb a b = false.
Proof. unfold Rltb. destruct (Rlt_dec a b); [lra|reflexivity]. Qed.
Lemma Rltb_true a b : (a < b)%R -> Rltb a b = true.
Proof. unfold Rltb. now destruct (Rlt_dec a b). Qed.

(** ** The mirror calls, in terms of the modelled ones *)
Section Mirror.
  Context {A : arith}.
  Notation "'Z#' z" := (ofZ A z) (at level 5).
  (** TransformMirrorHorizontal fpdftrans.go:76-78, TransformMirrorVertical
      fpdftrans.go:84-86, TransformMirrorPoint fpdftrans.go:92-94 *)
  Definition mirror_horizontal (x : num A) (s : st A) : st A := transform_scale (Z# (-100)) (Z# 100) x (x_y (t_geo s)) s.
  Definition mirror_vertical (y : num A) (s : st A) : st A := transform_scale (Z# 100) (Z# (-100)) (x_x (t_geo s)) y s.
  Definition mirror_point (x y : num A) (s : st A) : st A := transform_scale (Z# (-100)) (Z# (-100)) x y s.
  (** TransformMirrorLine fpdftrans.go:102-105 *)
  Definition mirror_line (ang x y : num A) (s : st A) : st A :=
    transform_rotate (nmul A (Z# (-2)) (nsub A ang (Z# 90))) x y (transform_scale (Z# (-100)) (Z# 100) x y s).
  (** TransformScaleX fpdftrans.go:32-34, TransformScaleY fpdftrans.go:41-43, TransformScaleXY fpdftrans.go:50-52,
      TransformTranslateX fpdftrans.go:111-113, TransformTranslateY fpdftrans.go:119-121,
      TransformSkewX fpdftrans.go:155-157, TransformSkewY fpdftrans.go:164-166 *)
  Definition scale_x (f x y : num A) := transform_scale f (Z# 100) x y.
  Definition scale_y (f x y : num A) := transform_scale (Z# 100) f x y.
  Definition scale_xy (f x y : num A) := transform_scale f f x y.
  Definition translate_x (t : num A) := transform_translate t (Z# 0).
  Definition translate_y (t : num A) := transform_translate (Z# 0) t.
  Definition skew_x (a x y : num A) := transform_skew a (Z# 0) x y.
  Definition skew_y (a x y : num A) := transform_skew (Z# 0) a x y.
End Mirror.

(** ** Specification *)
Local Open Scope R_scope.
Definition point : Type := R * R.
(** The points of the page, in the unit of the document with y downwards, and
    their PDF coordinates, in points with y upwards. *)
Definition pdf_of (s : st arithR) (P : point) : point := (fst P * x_k (t_geo s), (x_h (t_geo s) - snd P) * x_k (t_geo s)).
(** a PDF matrix: [x' y' 1] = [x y 1] [a b 0; c d 0; e f 1] *)
Definition by_matrix (o : op arithR) (p : point) : point :=
  match o with
  | Cm a b c d e f => (a * fst p + c * snd p + e, b * fst p + d * snd p + f)
  | _ => p
  end.
(** what a point of later drawing becomes: the last matrix acts first *)
Definition by_matrices (l : list (op arithR)) (p : point) : point := fold_right by_matrix p l.
Definition is_matrix (o : op arithR) : Prop := match o with Cm _ _ _ _ _ _ => True | _ => False end.

(** a transformation is in force: a context is open and there is a page *)
Definition active (s : st arithR) : Prop :=
  (n_tran (t_nest s) > 0)%Z /\ l_state (t_life s) = 2%Z /\ (pageno s < List.length (l_pages (t_life s)))%nat.
(** the call adds matrices to the current page, and nothing else, such that
    what is drawn at P afterwards appears where [T P] would have been *)
Definition maps (s s' : st arithR) (T : point -> point) : Prop :=
  exists ms, ops_of s' (pageno s) = ops_of s (pageno s) ++ ms /\ Forall is_matrix ms /\
    (forall P, by_matrices ms (pdf_of s P) = pdf_of s (T P)) /\
    (forall j, j <> pageno s -> ops_of s' j = ops_of s j) /\ t_geo s' = t_geo s /\ t_nest s' = t_nest s /\ errof s' = errof s /\ t_gfx s' = t_gfx s.
Definition rad (d : R) : R := d * PI / 180.

(** the named maps of the page, y downwards, angles counter-clockwise as seen *)
Definition scaling (fx fy : R) (c P : point) : point := (fst c + fx / 100 * (fst P - fst c), snd c + fy / 100 * (snd P - snd c)).
Definition rotation (d : R) (c P : point) : point :=
  (fst c + cos (rad d) * (fst P - fst c) + sin (rad d) * (snd P - snd c),
   snd c - sin (rad d) * (fst P - fst c) + cos (rad d) * (snd P - snd c)).
Definition skewing (ax ay : R) (c P : point) : point :=
  (fst P + tan (rad ax) * (snd c - snd P), snd P - tan (rad ay) * (fst P - fst c)).
Definition shift (tx ty : R) (P : point) : point := (fst P + tx, snd P + ty).
(** Q is the mirror image of P in the line through c at an angle of d degrees:
    PQ is perpendicular to the line and its midpoint is on it *)
Definition mirrored (d : R) (c P Q : point) : Prop :=
  let ux := cos (rad d) in let uy := - sin (rad d) in
  (fst Q - fst P) * ux + (snd Q - snd P) * uy = 0 /\
  ((fst P + fst Q) / 2 - fst c) * uy - ((snd P + snd Q) / 2 - snd c) * ux = 0.

(** ** Proofs *)
Lemma one_matrix s a b c d e f (T : point -> point) : active s ->
  (forall P, by_matrix (Cm (A := arithR) a b c d e f) (pdf_of s P) = pdf_of s (T P)) ->
  maps s (transform (A := arithR) a b c d e f s) T.
Proof.
  intros (H1 & H2 & H3) HT. unfold transform. destruct (Z.gtb_spec (n_tran (t_nest s)) 0); [|lia].
  exists [Cm (A := arithR) a b c d e f]. rewrite (emit_ops (fun _ => None)) by assumption. rewrite Nat.eqb_refl.
  repeat split; auto.
  - constructor; [exact I|constructor].
  - intros j Hj. rewrite (emit_ops (fun _ => None)) by assumption. destruct (Nat.eqb_spec j (pageno s)); [contradiction|]. now rewrite app_nil_r.
  - now rewrite emit_geo.
  - now rewrite emit_nest.
  - now rewrite emit_errof.
  - now rewrite emit_gfx.
Qed.
Ltac pt := unfold by_matrix, pdf_of; cbn [fst snd]; apply f_equal2.

Lemma scale_maps s fx fy x y : active s -> fx <> 0 -> fy <> 0 -> maps s (transform_scale (A := arithR) fx fy x y s) (scaling fx fy (x, y)).
Proof.
  intros Ha Hx Hy. unfold transform_scale. change (neq arithR) with Reqb. change (ofZ arithR) with IZR. rewrite !Reqb_false by assumption.
  cbn [orb]. cbv zeta. apply one_matrix; [exact Ha|]. intros [X Y]. unfold scaling. pt; cbn; field.
Qed.
Lemma rotate_maps s d x y : active s -> maps s (transform_rotate (A := arithR) d x y s) (rotation d (x, y)).
Proof.
  intros Ha. unfold transform_rotate. cbv zeta. apply one_matrix; [exact Ha|]. intros [X Y]. unfold rotation, rad. pt; cbn; ring.
Qed.
Lemma maps_active s s' T : active s -> maps s s' T -> pageno s' = pageno s -> l_state (t_life s') = l_state (t_life s) ->
  List.length (l_pages (t_life s')) = List.length (l_pages (t_life s)) -> active s'.
Proof. intros (H1 & H2 & H3) (ms & _ & _ & _ & _ & _ & N & _) P1 P2 P3. unfold active. rewrite N, P1, P2, P3. auto. Qed.
Lemma maps_trans s s1 s2 T U : pageno s1 = pageno s -> maps s s1 T -> maps s1 s2 U -> maps s s2 (fun P => T (U P)).
Proof.
  intros HP (m1 & A1 & A2 & A3 & A4 & A5 & A6 & A7 & A8) (m2 & B1 & B2 & B3 & B4 & B5 & B6 & B7 & B8). exists (m1 ++ m2).
  rewrite HP in *. rewrite B1, A1, app_assoc. split; [reflexivity|]. split; [apply Forall_app; auto|]. split.
  - intros P. unfold by_matrices. rewrite fold_right_app. fold (by_matrices m2 (pdf_of s P)).
    assert (E : forall Q, pdf_of s1 Q = pdf_of s Q) by (intros Q; unfold pdf_of; now rewrite A5).
    rewrite <- (E P), B3, E. apply A3.
  - split; [intros j Hj; rewrite B4, A4 by assumption; reflexivity|]. rewrite B5, A5, B6, A6, B7, A7, B8, A8. auto.
Qed.

Section Props.
  Context (core_font : bytes -> bytes -> fontdef + bytes) (asm : st arithR -> option (bytes * option error)).
  Notation exec := (exec core_font asm).
  Implicit Types s : st arithR.

  (** C46, the four calls of which the others are special cases *)
  Theorem C46_scale n fx fy x y s s' : active s -> fx <> 0 -> fy <> 0 ->
    exec (S n) (TransformScale (A := arithR) fx fy x y) s = Some s' -> maps s s' (scaling fx fy (x, y)).
  Proof. intros Ha Hx Hy [= <-]. now apply scale_maps. Qed.
  Theorem C46_rotate n d x y s s' : active s ->
    exec (S n) (TransformRotate (A := arithR) d x y) s = Some s' -> maps s s' (rotation d (x, y)).
  Proof. intros Ha [= <-]. now apply rotate_maps. Qed.
  Theorem C46_skew n ax ay x y s s' : active s -> -90 < ax < 90 -> -90 < ay < 90 ->
    exec (S n) (TransformSkew (A := arithR) ax ay x y) s = Some s' -> maps s s' (skewing ax ay (x, y)).
  Proof.
    intros Ha Hx Hy [= <-]. unfold transform_skew, nle'. change (nlt arithR) with Rltb. change (neq arithR) with Reqb. change (ofZ arithR) with IZR.
    change (num arithR) with R in *.
    rewrite !Rltb_false, !Reqb_false by lra. cbn [orb]. cbv zeta. apply one_matrix; [exact Ha|].
    intros [X Y]. unfold skewing, rad. pt; cbn; ring.
  Qed.
  Theorem C46_translate n tx ty s s' : active s ->
    exec (S n) (TransformTranslate (A := arithR) tx ty) s = Some s' -> maps s s' (shift tx ty).
  Proof.
    intros Ha [= <-]. unfold transform_translate. cbv zeta. apply one_matrix; [exact Ha|]. intros [X Y]. unfold shift. pt; cbn; ring.
  Qed.
  (** the center stays, for each *)
  Theorem C46_fixed fx fy d ax ay c : scaling fx fy c c = c /\ rotation d c c = c /\ skewing ax ay c c = c.
  Proof. destruct c as [x y]. unfold scaling, rotation, skewing. cbn [fst snd]. repeat split; apply f_equal2; ring. Qed.
  (** rotation keeps distances *)
  Theorem C46_rigid d c P Q : let T := rotation d c in
    (fst (T P) - fst (T Q)) ^ 2 + (snd (T P) - snd (T Q)) ^ 2 = (fst P - fst Q) ^ 2 + (snd P - snd Q) ^ 2.
  Proof.
    cbv zeta. unfold rotation. cbn [fst snd]. pose proof (sin2_cos2 (rad d)) as H. unfold Rsqr in H.
    set (S := sin (rad d)) in *. set (C := cos (rad d)) in *. clearbody S C.
    transitivity ((S * S + C * C) * ((fst P - fst Q) ^ 2 + (snd P - snd Q) ^ 2)); [ring|]. rewrite H. ring.
  Qed.

  (** the mirror calls *)
  Theorem C46_mirrors x y s : active s ->
    maps s (mirror_horizontal (A := arithR) x s) (fun P => (2 * x - fst P, snd P)) /\
    maps s (mirror_vertical (A := arithR) y s) (fun P => (fst P, 2 * y - snd P)) /\
    maps s (mirror_point (A := arithR) x y s) (fun P => (2 * x - fst P, 2 * y - snd P)).
  Proof.
    intros Ha.
    assert (EX : forall s' T U, maps s s' T -> (forall P, T P = U P) -> maps s s' U).
    { intros s' T U (ms & A1 & A2 & A3 & A4) E. exists ms. split; [exact A1|]. split; [exact A2|]. split; [|exact A4].
      intros P. rewrite <- E. apply A3. }
    repeat split.
    - eapply EX; [apply scale_maps; [exact Ha|cbn; lra|cbn; lra]|]. intros [X Y]. unfold scaling. cbn [fst snd]. apply f_equal2; cbn; field.
    - eapply EX; [apply scale_maps; [exact Ha|cbn; lra|cbn; lra]|]. intros [X Y]. unfold scaling. cbn [fst snd]. apply f_equal2; cbn; field.
    - eapply EX; [apply scale_maps; [exact Ha|cbn; lra|cbn; lra]|]. intros [X Y]. unfold scaling. cbn [fst snd]. apply f_equal2; cbn; field.
  Qed.
  Theorem C46_mirror_line d x y s : active s -> exists T, maps s (mirror_line (A := arithR) d x y s) T /\ forall P, mirrored d (x, y) P (T P).
  Proof.
    intros Ha. unfold mirror_line. set (s1 := transform_scale _ _ _ _ s).
    assert (M1 : maps s s1 (scaling (-100) 100 (x, y))) by (apply scale_maps; [exact Ha|lra|lra]).
    assert (P1 : pageno s1 = pageno s /\ l_state (t_life s1) = l_state (t_life s) /\ List.length (l_pages (t_life s1)) = List.length (l_pages (t_life s))).
    { unfold s1, transform_scale. change (neq arithR) with Reqb. change (ofZ arithR) with IZR. rewrite !Reqb_false by lra. cbn [orb]. cbv zeta.
      unfold transform. destruct Ha as (H1 & H2 & H3). destruct (Z.gtb_spec (n_tran (t_nest s)) 0); [|lia].
      destruct (frame_emit [Cm (A := arithR) (IZR (-100) / IZR 100) (IZR 0) (IZR 0) (IZR 100 / IZR 100)
        (x * x_k (t_geo s) * (IZR 1 - IZR (-100) / IZR 100)) ((x_h (t_geo s) - y) * x_k (t_geo s) * (IZR 1 - IZR 100 / IZR 100))] s) as (F1 & F2 & F3 & _).
      auto. }
    destruct P1 as (P1 & P2 & P3). pose proof (maps_active _ _ _ Ha M1 P1 P2 P3) as Ha1. clearbody s1.
    pose proof (rotate_maps s1 (IZR (-2) * (d - IZR 90)) x y Ha1) as M2.
    eexists. split; [eapply maps_trans; [exact P1|exact M1|exact M2]|].
    intros [X Y]. unfold mirrored, scaling, rotation. cbv zeta. cbn [fst snd].
    replace (rad (-2 * (d - 90))) with (PI - 2 * rad d) by (unfold rad; field).
    replace (cos (PI - 2 * rad d)) with (- cos (2 * rad d)) by (rewrite <- (cos_neg (PI - 2 * rad d)); replace (- (PI - 2 * rad d)) with (2 * rad d - PI) by ring; rewrite cos_minus, cos_PI, sin_PI; ring).
    rewrite sin_PI_x. rewrite sin_2a, cos_2a. pose proof (sin2_cos2 (rad d)) as H. unfold Rsqr in H.
    set (S := sin (rad d)) in *. set (C := cos (rad d)) in *. clearbody S C. set (u := X - x). set (v := Y - y).
    assert (HC : C * C = 1 - S * S) by lra.
    split.
    - replace X with (u + x) by (unfold u; ring). replace Y with (v + y) by (unfold v; ring).
      transitivity ((S * S + C * C - 1) * (C * u - S * v)); [field|rewrite H; ring].
    - replace X with (u + x) by (unfold u; ring). replace Y with (v + y) by (unfold v; ring).
      transitivity ((S * S + C * C - 1) * (S * u + C * v) / 2); [field|rewrite H; field].
  Qed.

  (** Refused: outside of a context, with a factor of zero, or with an angle of
      90 degrees or more; nothing is written. *)
  Theorem C46_refused n s :
    (forall fx fy x y, fx = 0 \/ fy = 0 -> exists e, exec (S n) (TransformScale (A := arithR) fx fy x y) s = Some (force_err e s)) /\
    (forall ax ay x y, ax <= -90 \/ 90 <= ax \/ ay <= -90 \/ 90 <= ay -> exists e, exec (S n) (TransformSkew (A := arithR) ax ay x y) s = Some (force_err e s)) /\
    ((n_tran (t_nest s) <= 0)%Z -> failed s = false -> forall c, match c with TransformScale _ _ _ _ | TransformRotate _ _ _ | TransformSkew _ _ _ _ | TransformTranslate _ _ | Transform _ _ _ _ _ _ => True | _ => False end ->
       exists e, exec (S n) c s = Some (force_err e s)).
  Proof.
    split; [|split].
    - intros fx fy x y H. exists EScale. cbn [ApiModel.exec step]. f_equal. unfold transform_scale.
      change (neq arithR) with Reqb. change (ofZ arithR) with IZR. destruct H as [->| ->]; rewrite (Reqb_true 0 0 eq_refl), ?orb_true_r; reflexivity.
    - intros ax ay x y H. exists ESkew. cbn [ApiModel.exec step]. f_equal. unfold transform_skew, nle'.
      change (neq arithR) with Reqb. change (nlt arithR) with Rltb. change (ofZ arithR) with IZR.
      assert (L : forall a b, a <= b -> Rltb a b || Reqb a b = true).
      { intros a b Hab. unfold Rltb, Reqb. destruct (Rlt_dec a b); [reflexivity|]. destruct (Req_EM_T a b); [reflexivity|lra]. }
      destruct H as [H|[H|[H|H]]]; rewrite (L _ _ H), ?orb_true_r; reflexivity.
    - intros Hn Hf c Hc. destruct c; try contradiction; cbn [ApiModel.exec step];
        unfold transform_scale, transform_rotate, transform_skew, transform_translate, transform; cbv zeta;
        (destruct (Z.gtb_spec (n_tran (t_nest s)) 0); [lia|]); unfold fail; unfold failed in Hf |- *; rewrite Hf;
        split_ifs; eexists; reflexivity.
  Qed.
End Props.

Print Assumptions C46_scale.
Print Assumptions C46_rotate.
Print Assumptions C46_skew.
Print Assumptions C46_translate.
Print Assumptions C46_fixed.
Print Assumptions C46_rigid.
Print Assumptions C46_mirrors.
Print Assumptions C46_mirror_line.
Print Assumptions C46_refused.

(** *** A state in which the hypotheses hold: a page in millimeters with a
    transformation begun; a quarter turn about (10, 20) takes (11, 20) to
    (10, 19). *)
Definition trans_ex : st arithR := transform_begin (fresh_page (init (A := arithR) (72 / 25.4) [80%Z] 210 297 10)).
Example C46_active : active trans_ex.
Proof.
  unfold active, trans_ex, transform_begin. set (s0 := on_nest _ _). rewrite emit_nest.
  destruct (frame_emit [Save] s0) as (F1 & F2 & F3 & _). rewrite F1, F2, F3. unfold s0, init, pageno.
  destruct (if beqb _ _ then _ else _). cbn.
  repeat split; lia.
Qed.
Example C46_quarter : rotation 90 (10, 20) (11, 20) = (10, 19).
Proof.
  unfold rotation, rad. cbn [fst snd]. replace (90 * PI / 180) with (PI / 2) by field. rewrite cos_PI2, sin_PI2. apply f_equal2; ring.
Qed.
