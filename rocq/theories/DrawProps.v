(** C57: lines and curves.  C61: arcs. *)
From Coq Require Import String.
From Coq Require Import Reals Lra Psatz.
From Verif Require Import Base DrawSpec DrawModel.
Local Open Scope list_scope.
Local Open Scope R_scope.
Notation length := List.length.

Lemma app_id p : app_mat id_mat p = p.
Proof. destruct p as [x y]. unfold app_mat, id_mat. cbn [fst snd]. f_equal; ring. Qed.

(** ** Runs of drawing operators *)
Definition drawing (o : op) : bool := match o with Ol _ | Oc _ _ _ | Ov _ _ => true | _ => false end.
Fixpoint segs (m : point -> point) (p : point) (l : list op) : list seg :=
  match l with
  | Ol q :: t => Straight p (m q) :: segs m (m q) t
  | Oc c1 c2 q :: t => Bez p (m c1) (m c2) (m q) :: segs m (m q) t
  | Ov c2 q :: t => Bez p p (m c2) (m q) :: segs m (m q) t
  | _ => []
  end.
Lemma segs_run : forall l p g rest, forallb drawing l = true -> g_cur g = Some p ->
  exists q, grun (l ++ rest) g = grun rest {| g_ctm := g_ctm g; g_stack := g_stack g; g_cur := Some q; g_start := g_start g; g_path := g_path g ++ segs (app_mat (g_ctm g)) p l; g_done := g_done g |}.
Proof.
  induction l as [|o l IH]; intros p g rest H C.
  - exists p. cbn [app segs]. rewrite app_nil_r, <- C. destruct g; reflexivity.
  - cbn [forallb] in H. apply andb_prop in H as [H1 H2]. cbn [app grun].
    destruct o; try discriminate H1; unfold gstep; rewrite C; cbv zeta; edestruct IH as (q & ->); try exact H2; try reflexivity; exists q; cbn [add_seg g_ctm g_stack g_start g_path g_done last_of segs]; rewrite <- app_assoc; reflexivity.
Qed.
(** a path that starts with a move, is drawn and painted, when nothing is going on *)
Lemma path_paints l p how : forallb drawing l = true -> paints (Om p :: l ++ [Opaint how]) = Some [(how, segs (app_mat id_mat) p l)].
Proof.
  intros H. unfold paints. cbn [grun gstep]. edestruct (segs_run l) as (q & ->); [exact H|reflexivity|]. cbn [g_ctm g_init g_stack g_start g_path g_done app]. rewrite app_id. reflexivity.
Qed.
(** points joined by straight lines *)
Fixpoint chain (p : point) (l : list point) : list seg := match l with [] => [] | q :: t => Straight p q :: chain q t end.
Lemma segs_chain : forall l p, segs (app_mat id_mat) p (map Ol l) = chain p l.
Proof. induction l as [|q l IH]; intros p; [reflexivity|]. cbn [map segs chain]. now rewrite app_id, IH. Qed.
Ltac gr := unfold paints; repeat (cbn [grun gstep g_init g_cur g_ctm opoint ocurve add_seg last_of g_path g_done g_start g_stack option_map app]; rewrite ?app_id).
Lemma drawing_ol l : forallb drawing (map Ol l) = true.
Proof. induction l; [reflexivity|exact IHl]. Qed.

Section Draw.
  Variables (rd2 rd5 : R -> R).
  Variables (k h : R).
  Variable upper : bytes -> bytes.
  Notation at2 := (at2 rd2 k h). Notation at5 := (at5 rd5 k h). Notation fdo := (fill_draw_op upper).
  (** cubic curves one after the other *)
  Fixpoint curves (p : point) (l : list point) : list seg :=
    match l with c0 :: c1 :: q :: t => Bez p (at5 (fst c0) (snd c0)) (at5 (fst c1) (snd c1)) (at5 (fst q) (snd q)) :: curves (at5 (fst q) (snd q)) t | _ => [] end.
  Lemma groups_run : forall n l p, (length l <= n)%nat -> forallb drawing (bez_groups rd5 k h l) = true /\ segs (app_mat id_mat) p (bez_groups rd5 k h l) = curves p l.
  Proof.
    induction n as [|n IH]; intros l p H; [destruct l; [now split|cbn in H; lia]|]. destruct l as [|c0 [|c1 [|q l]]]; try now split.
    destruct (IH l (at5 (fst q) (snd q))) as [A B]; [cbn in H; lia|]. cbn [bez_groups forallb drawing segs curves ocurve]. rewrite !app_id, B. now split.
  Qed.
End Draw.

(** ** C57 *)
(** The calls draw what they say: the points given, in points from the lower left
    corner of the page, rounded as printed.  [P2] and [P5] are such points. *)
Theorem C57_shapes_partial : forall (rd2 rd5 : R -> R) (k h : R) (upper : bytes -> bytes),
  let P2 (p : point) := (rd2 (fst p * k), rd2 ((h - snd p) * k)) in
  let P5 (p : point) := (rd5 (fst p * k), rd5 ((h - snd p) * k)) in
  let how := fill_draw_op upper in
  (forall a b, paints (line rd2 k h (fst a) (snd a) (fst b) (snd b)) = Some [(bs "S", [Straight (P2 a) (P2 b)])]) /\
  (forall a w ht style, let '(x, y) := P2 a in let x' := x + rd2 (w * k) in let y' := y + rd2 (- ht * k) in
     paints (rect rd2 k h upper (fst a) (snd a) w ht style) =
     Some [(how style, [Straight (x, y) (x', y); Straight (x', y) (x', y'); Straight (x', y') (x, y'); Straight (x, y') (x, y)])]) /\
  (forall a c0 c1 b style, paints (curve_bezier rd2 rd5 k h upper (fst a) (snd a) (fst c0) (snd c0) (fst c1) (snd c1) (fst b) (snd b) style) =
     Some [(how style, [Bez (P2 a) (P5 c0) (P5 c1) (P5 b)])]) /\
  (forall a c0 b c1 style, paints (curve_cubic rd2 rd5 k h upper (fst a) (snd a) (fst c0) (snd c0) (fst b) (snd b) (fst c1) (snd c1) style) =
     Some [(how style, [Bez (P2 a) (P5 c0) (P5 c1) (P5 b)])]) /\
  (forall a b c rest style, paints (polygon rd2 rd5 k h upper (a :: b :: c :: rest) style) =
     Some [(how style, chain (P2 a) (map P5 ((b :: c :: rest) ++ [a])))]) /\
  (forall a c0 c1 b rest style, paints (beziergon rd2 rd5 k h upper (a :: c0 :: c1 :: b :: rest) style) =
     Some [(how style, Bez (P2 a) (P5 c0) (P5 c1) (P5 b) :: curves rd5 k h (P5 b) rest)]).
Proof.
  intros rd2 rd5 k h upper P2 P5 how. split; [|split; [|split; [|split; [|split]]]].
  - intros a b. unfold line. gr. reflexivity.
  - intros a w ht style. unfold P2, rect. gr. reflexivity.
  - intros a c0 c1 b style. unfold curve_bezier. gr. reflexivity.
  - intros a c0 c1 b style. unfold curve_cubic, curve_bezier. gr. reflexivity.
  - intros a b c rest style. unfold polygon, opoint.
    change (at2 rd2 k h (fst a) (snd a)) with (P2 a). change (Ol (at5 rd5 k h (fst a) (snd a))) with (Ol (P5 a)).
    replace (map (fun p => Ol (at5 rd5 k h (fst p) (snd p))) (b :: c :: rest) ++ [Ol (P5 a); Opaint (fill_draw_op upper style)]) with (map Ol (map P5 ((b :: c :: rest) ++ [a])) ++ [Opaint (fill_draw_op upper style)])
      by (rewrite map_map, map_app, <- app_assoc; reflexivity).
    rewrite path_paints by apply drawing_ol. now rewrite segs_chain.
  - intros a c0 c1 b rest style. unfold beziergon, opoint. destruct (groups_run rd2 rd5 k h _ (c0 :: c1 :: b :: rest) (P2 a) (le_n _)) as [A B].
    change (at2 rd2 k h (fst a) (snd a)) with (P2 a). rewrite path_paints by exact A. rewrite B. reflexivity.
Qed.
Print Assumptions C57_shapes_partial.

(** Paths built call by call: MoveTo starts a part, LineTo and CurveBezierCubicTo
    continue from the last point, ClosePath goes back to the start of the part. *)
Section Trace.
  Variables (P2 P5 : point -> point).
  Fixpoint trace (cur start : point) (calls : list pcall) : list seg :=
    match calls with
    | [] => []
    | PMove x y :: t => trace (P2 (x, y)) (P2 (x, y)) t
    | PLine x y :: t => Straight cur (P2 (x, y)) :: trace (P2 (x, y)) start t
    | PCubic cx0 cy0 cx1 cy1 x y :: t => Bez cur (P5 (cx0, cy0)) (P5 (cx1, cy1)) (P5 (x, y)) :: trace (P5 (x, y)) start t
    | PQuad _ _ _ _ :: t => trace cur start t
    | PClose :: t => Straight cur start :: trace start start t
    end.
End Trace.
Definition not_quad (c : pcall) : Prop := match c with PQuad _ _ _ _ => False | _ => True end.
Theorem C57_paths_partial : forall (rd2 rd5 : R -> R) (k h : R) (upper : bytes -> bytes) x y calls style, Forall not_quad calls ->
  let P2 (p : point) := (rd2 (fst p * k), rd2 ((h - snd p) * k)) in
  let P5 (p : point) := (rd5 (fst p * k), rd5 ((h - snd p) * k)) in
  paints (draw_path rd2 rd5 k h upper (PMove x y :: calls) style) = Some [(fill_draw_op upper style, trace P2 P5 (P2 (x, y)) (P2 (x, y)) calls)].
Proof.
  intros rd2 rd5 k h upper x y calls style H P2 P5. unfold draw_path, paints. cbn [map app pcall_ops grun opoint gstep g_ctm g_init g_stack g_path g_done]. rewrite app_id.
  change (at2 rd2 k h x y) with (P2 (x, y)).
  assert (G : forall calls cur start path, Forall not_quad calls ->
    option_map g_done (grun (map (pcall_ops rd2 rd5 k h) calls ++ [Opaint (fill_draw_op upper style)]) {| g_ctm := id_mat; g_stack := []; g_cur := Some cur; g_start := start; g_path := path; g_done := [] |}) =
    Some [(fill_draw_op upper style, path ++ trace P2 P5 cur start calls)]).
  { clear. induction calls as [|c calls IH]; intros cur start path H; [cbn; now rewrite app_nil_r|]. inversion H as [|? ? Hc Hr]; subst.
    destruct c as [x y|x y|cx cy x y|cx0 cy0 cx1 cy1 x y|]; [| |destruct Hc| |]; cbn [map app pcall_ops grun opoint ocurve gstep g_ctm g_stack g_cur g_start g_path g_done add_seg last_of trace]; rewrite ?app_id.
    - exact (IH (P2 (x, y)) (P2 (x, y)) path Hr).
    - change (DrawModel.at2 rd2 k h x y) with (P2 (x, y)). etransitivity; [exact (IH (P2 (x, y)) start (path ++ [Straight cur (P2 (x, y))]) Hr)|]. rewrite <- app_assoc. reflexivity.
    - change (DrawModel.at5 rd5 k h x y) with (P5 (x, y)). etransitivity; [exact (IH _ start _ Hr)|]. rewrite <- app_assoc. reflexivity.
    - etransitivity; [exact (IH _ _ _ Hr)|]. rewrite <- app_assoc. reflexivity. }
  exact (G calls (P2 (x, y)) (P2 (x, y)) [] H).
Qed.
Print Assumptions C57_paths_partial.

Lemma segs_id : forall l p, segs (app_mat id_mat) p l = segs (fun q => q) p l.
Proof. induction l as [|o l IH]; intros p; [reflexivity|]. destruct o; cbn [segs]; rewrite ?app_id, ?IH; reflexivity. Qed.
Lemma corner_segs (z : bool) p a c1 c2 b rest : (z = true -> a = b) ->
  segs (fun q => q) p ((Ol a :: (if z then [] else [Oc c1 c2 b])) ++ rest) = [Straight p a] ++ (if z then [] else [Bez a c1 c2 b]) ++ segs (fun q => q) b rest.
Proof. intros H. destruct z; [rewrite <- (H eq_refl)|]; reflexivity. Qed.
(** RoundedRect: four sides and four corner curves, one after the other and back to
    the start; no curve where a radius is zero. *)
Theorem C57_rounded_partial : forall (rd2 rd5 : R -> R) (k h : R) (upper : bytes -> bytes) isz sqrt2 x y w ht rTL rTR rBR rBL style,
  (forall r, isz r = true <-> r = 0) ->
  let P (x y : R) := (rd5 (x * k), rd5 ((h - y) * k)) in
  let corner (r : R) (s : seg) := if isz r then [] else [s] in
  let m := 4 / 3 * (sqrt2 - 1) in
  let r := x + w in let b := y + ht in
  paints (rounded_rect rd5 k h upper isz sqrt2 x y w ht rTL rTR rBR rBL style) =
  Some [(fill_draw_op upper style,
    [Straight (P (x + rTL) y) (P (r - rTR) y)] ++ corner rTR (Bez (P (r - rTR) y) (P (r - rTR + rTR * m) y) (P r (y + rTR - rTR * m)) (P r (y + rTR))) ++
    [Straight (P r (y + rTR)) (P r (b - rBR))] ++ corner rBR (Bez (P r (b - rBR)) (P r (b - rBR + rBR * m)) (P (r - rBR + rBR * m) b) (P (r - rBR) b)) ++
    [Straight (P (r - rBR) b) (P (x + rBL) b)] ++ corner rBL (Bez (P (x + rBL) b) (P (x + rBL - rBL * m) b) (P x (b - rBL + rBL * m)) (P x (b - rBL))) ++
    [Straight (P x (b - rBL)) (P x (y + rTL))] ++ corner rTL (Bez (P x (y + rTL)) (P x (y + rTL - rTL * m)) (P (x + rTL - rTL * m) y) (P (x + rTL) y)))].
Proof.
  intros rd2 rd5 k h upper isz sqrt2 x y w ht rTL rTR rBR rBL style Hz P corner m r b.
  assert (Sub : forall u v : R, u - v + v = u) by (intros; ring). assert (Add : forall u v : R, u + v - v = u) by (intros; ring).
  unfold rounded_rect, paints. cbn [grun gstep g_init g_cur g_ctm g_stack g_start g_path g_done].
  assert (D : forallb drawing (tl (rounded_path rd5 k h isz sqrt2 x y w ht rTL rTR rBR rBL)) = true) by (unfold rounded_path; cbn [tl]; destruct (isz rTR), (isz rBR), (isz rBL), (isz rTL); reflexivity).
  change (rounded_path rd5 k h isz sqrt2 x y w ht rTL rTR rBR rBL ++ [Opaint (fill_draw_op upper style)]) with
    (Om (P (x + rTL) y) :: tl (rounded_path rd5 k h isz sqrt2 x y w ht rTL rTR rBR rBL) ++ [Opaint (fill_draw_op upper style)]).
  cbn [grun gstep g_ctm g_stack g_path g_done]. rewrite app_id. edestruct segs_run as (q & ->); [exact D|reflexivity|]. cbn [grun gstep g_cur g_ctm g_stack g_start g_path g_done option_map app].
  rewrite segs_id. do 3 f_equal. clear D. unfold rounded_path. cbv zeta. cbn [tl]. fold m. fold r. fold b.
  assert (Z0 : forall q, isz q = true -> q = 0) by (intros; now apply Hz).
  rewrite corner_segs by (intros Hq; apply Z0 in Hq; subst; unfold at5; f_equal; f_equal; ring).
  rewrite corner_segs by (intros Hq; apply Z0 in Hq; subst; unfold at5; f_equal; f_equal; ring).
  rewrite corner_segs by (intros Hq; apply Z0 in Hq; subst; unfold at5; f_equal; f_equal; ring).
  rewrite <- (app_nil_r (Ol _ :: (if isz rTL then [] else _))).
  rewrite corner_segs by (intros Hq; apply Z0 in Hq; subst; unfold at5; f_equal; f_equal; ring). cbn [segs]. rewrite app_nil_r.
  rewrite !Sub, !Add. reflexivity.
Qed.
Print Assumptions C57_rounded_partial.

(** Curve and CurveTo do not draw the quadratic curve they document: with start and
    end at the origin and control point (9, 0), the quadratic curve passes through
    (4.5, 0); the curve drawn does not get beyond (4, 0). *)
Theorem C57_quadratic_refuted : forall (rd2 rd5 : R -> R) (upper : bytes -> bytes) style, (forall n, rd2 (IZR n) = IZR n) -> (forall n, rd5 (IZR n) = IZR n) ->
  exists a c1 c2 b, paints (curve_quad rd2 rd5 1 0 upper 0 0 9 0 0 0 style) = Some [(fill_draw_op upper style, [Bez a c1 c2 b])] /\
    paints (draw_path rd2 rd5 1 0 upper [PMove 0 0; PQuad 9 0 0 0] style) = Some [(fill_draw_op upper style, [Bez a c1 c2 b])] /\
    a = (0, 0) /\ b = (0, 0) /\
    quad (0, 0) (9, 0) (0, 0) (1 / 2) = (9 / 2, 0) /\ forall t, 0 <= t <= 1 -> fst (bez a c1 c2 b t) <= 4.
Proof.
  intros rd2 rd5 upper style H2 H5.
  assert (E2 : at2 rd2 1 0 0 0 = (0, 0)) by (unfold at2; replace (0 * 1) with 0 by ring; replace ((0 - 0) * 1) with 0 by ring; now rewrite H2).
  assert (E5 : at5 rd5 1 0 0 0 = (0, 0)) by (unfold at5; replace (0 * 1) with 0 by ring; replace ((0 - 0) * 1) with 0 by ring; now rewrite H5).
  assert (E9 : at5 rd5 1 0 9 0 = (9, 0)) by (unfold at5; replace (9 * 1) with 9 by ring; replace ((0 - 0) * 1) with 0 by ring; now rewrite !H5).
  exists (0, 0), (0, 0), (9, 0), (0, 0). split; [unfold curve_quad, opoint; rewrite E2, E5, E9; gr; reflexivity|].
  split; [unfold draw_path; cbn [map pcall_ops app]; unfold opoint; rewrite E2, E5, E9; gr; reflexivity|].
  do 2 (split; [reflexivity|]). split; [unfold quad, quad1; cbn [fst snd]; f_equal; field|].
  intros t [T0 T1]. unfold bez, bez1. cbn [fst snd]. assert (0 <= (3 * t - 2) * (3 * t - 2) * (3 * t + 1)) by (apply Rmult_le_pos; [apply Rle_0_sqr|lra]). nra.
Qed.
Print Assumptions C57_quadratic_refuted.
(** Beziergon is documented as a closed figure, but nothing joins the last point to
    the first. *)
Theorem C57_beziergon_refuted : forall (rd2 rd5 : R -> R) (upper : bytes -> bytes), (forall n, rd2 (IZR n) = IZR n) -> (forall n, rd5 (IZR n) = IZR n) ->
  exists s, paints (beziergon rd2 rd5 1 0 upper [(0, 0); (1, 0); (2, 0); (3, 0)] (bs "S")) = Some [(fill_draw_op upper (bs "S"), [s])] /\ first_of s <> last_of s.
Proof.
  intros rd2 rd5 upper H2 H5. destruct (C57_shapes_partial rd2 rd5 1 0 upper) as (_ & _ & _ & _ & _ & B). rewrite B. eexists. split; [reflexivity|].
  cbn [first_of last_of fst snd]. replace (0 * 1) with 0 by ring. replace (3 * 1) with 3 by ring. rewrite H2, H5. intros E. injection E as E _. lra.
Qed.
Print Assumptions C57_beziergon_refuted.
(** Every style of the documentation, in any case, is painted as it says; anything
    else is taken for an operator. *)
Theorem C57_styles_partial : forall (upper : bytes -> bytes) style,
  (forall u o, In (u, o) style_table -> upper style = u -> fill_draw_op upper style = o) /\
  (~ In (upper style) (map fst style_table) -> fill_draw_op upper style = style).
Proof.
  intros upper style. split.
  - intros u o H E. unfold fill_draw_op. rewrite E. unfold style_table in H. cbn [In] in H.
    repeat (destruct H as [H|H]; [injection H as <- <-; reflexivity|]). destruct H.
  - intros H. unfold fill_draw_op, style_table in *. cbn [map fst In] in H.
    assert (N : forall v, (v = upper style -> False) -> beqb (upper style) v = false) by (intros v G; apply beqb_neq; intros E; apply G; now symmetry).
    rewrite !N by tauto. reflexivity.
Qed.
Print Assumptions C57_styles_partial.

(** rounding that keeps whole numbers exists, and all-zero radii too *)
Example C57_case : exists rd : R -> R, (forall n, rd (IZR n) = IZR n) /\ Forall not_quad [PLine 1 2; PCubic 1 2 3 4 5 6; PClose; PMove 3 4] /\
  exists isz : R -> bool, forall r, isz r = true <-> r = 0.
Proof.
  exists (fun x => x). split; [reflexivity|]. split; [repeat constructor|]. exists (fun r => if Req_EM_T r 0 then true else false). intros r. destruct (Req_EM_T r 0); split; easy.
Qed.

(** ** C61: arcs; the rounding of printed numbers is left out here *)
(** The point of the ellipse at angle t, and the direction of the ellipse there, on
    the page: angles are counted counter-clockwise from 3 o'clock, and the whole is
    turned counter-clockwise by [rot] radians around the centre. *)
Section Ellipse.
  Variables (k h x y rx ry rot : R).
  Definition turn (u v : R) : point := (u * cos rot - v * sin rot, u * sin rot + v * cos rot).
  Definition ellipse (t : R) : point := let '(u, v) := turn (rx * cos t) (ry * sin t) in ((x + u) * k, (h - y + v) * k).
  Definition heading (t : R) : point := let '(u, v) := turn (- rx * sin t) (ry * cos t) in (u * k, v * k).
  Definition along (p d : point) (s : R) : point := (fst p + s * fst d, snd p + s * snd d).
  (** the curve from angle t0 to t1: it starts and ends on the ellipse and leaves and
      arrives in the direction of the ellipse *)
  Definition piece (t0 t1 : R) : seg :=
    Bez (ellipse t0) (along (ellipse t0) (heading t0) ((t1 - t0) / 3)) (along (ellipse t1) (heading t1) (- ((t1 - t0) / 3))) (ellipse t1).
End Ellipse.
(** the heading is the derivative of the point *)
Lemma heading_ok k h x y rx ry rot t : derivable_pt_lim (fun t => fst (ellipse k h x y rx ry rot t)) t (fst (heading k rx ry rot t)) /\
  derivable_pt_lim (fun t => snd (ellipse k h x y rx ry rot t)) t (snd (heading k rx ry rot t)).
Proof.
  unfold ellipse, heading, turn. cbn [fst snd].
  assert (C : derivable_pt_lim (fun t => rx * cos t) t (- rx * sin t)) by (replace (- rx * sin t) with (rx * - sin t) by ring; apply derivable_pt_lim_scal, derivable_pt_lim_cos).
  assert (S : derivable_pt_lim (fun t => ry * sin t) t (ry * cos t)) by (apply derivable_pt_lim_scal, derivable_pt_lim_sin).
  split.
  - replace ((- rx * sin t * cos rot - ry * cos t * sin rot) * k) with (0 * k + k * (0 + (cos rot * (- rx * sin t) - sin rot * (ry * cos t)))) by ring.
    apply (derivable_pt_lim_ext (fun t => x * k + k * (0 + (cos rot * (rx * cos t) - sin rot * (ry * sin t))))); [intros; ring|].
    replace (0 * k) with 0 by ring. apply derivable_pt_lim_plus; [apply derivable_pt_lim_const|]. apply derivable_pt_lim_scal. apply derivable_pt_lim_plus; [apply derivable_pt_lim_const|].
    apply derivable_pt_lim_minus; apply derivable_pt_lim_scal; assumption.
  - replace ((- rx * sin t * sin rot + ry * cos t * cos rot) * k) with (0 + k * (sin rot * (- rx * sin t) + cos rot * (ry * cos t))) by ring.
    apply (derivable_pt_lim_ext (fun t => (h - y) * k + k * (sin rot * (rx * cos t) + cos rot * (ry * sin t)))); [intros; ring|].
    apply derivable_pt_lim_plus; [apply derivable_pt_lim_const|]. apply derivable_pt_lim_scal. apply derivable_pt_lim_plus; apply derivable_pt_lim_scal; assumption.
Qed.

Definition keep (r : R) : R := r.
Section Arc.
  Variables (k h : R).
  Hypothesis Hk : k <> 0.
  Lemma at_pdf a b : at5 keep k h (a / k) (h - b / k) = (a, b).
  Proof. unfold at5, keep. f_equal; field; exact Hk. Qed.
  Lemma at_pdf2 a b : at2 keep k h (a / k) (h - b / k) = (a, b).
  Proof. unfold at2, keep. f_equal; field; exact Hk. Qed.
  (** the point and direction before the page transformation *)
  Notation lp x y rx ry t := (x + rx * cos t, y + ry * sin t).
  Lemma loop_segs m : forall n j x y rx ry dt start,
    let ang i := INR i * dt + start in
    forallb drawing (arc_loop keep k h n (S j) x y rx ry dt start (x + rx * cos (ang j)) (y + ry * sin (ang j)) (- rx * sin (ang j)) (ry * cos (ang j))) = true /\
    segs m (m (lp x y rx ry (ang j))) (arc_loop keep k h n (S j) x y rx ry dt start (x + rx * cos (ang j)) (y + ry * sin (ang j)) (- rx * sin (ang j)) (ry * cos (ang j))) =
    map (fun i => Bez (m (lp x y rx ry (ang i))) (m (x + rx * cos (ang i) + - rx * sin (ang i) * (dt / 3), y + ry * sin (ang i) + ry * cos (ang i) * (dt / 3)))
                      (m (x + rx * cos (ang (S i)) - - rx * sin (ang (S i)) * (dt / 3), y + ry * sin (ang (S i)) - ry * cos (ang (S i)) * (dt / 3))) (m (lp x y rx ry (ang (S i))))) (seq j n).
  Proof.
    induction n as [|n IH]; intros j x y rx ry dt start ang; [now split|]. cbn [arc_loop forallb]. cbv zeta. unfold ocurve. rewrite !at_pdf. cbn [drawing andb segs seq map].
    destruct (IH (S j) x y rx ry dt start) as [A B]. cbv zeta in A, B. fold (ang (S j)) in A, B. fold (ang (S j)). split; [exact A|]. f_equal. exact B.
  Qed.
End Arc.
Lemma segments_two d : (2 <= segments d)%nat.
Proof. unfold segments. lia. Qed.
Lemma step_bound d : 0 <= d -> d / INR (segments d) <= 90.
Proof.
  intros Hd. pose proof (segments_two d) as H2. assert (P : 0 < INR (segments d)) by (apply lt_0_INR; lia). apply (Rmult_le_reg_r (INR (segments d))); [exact P|]. unfold Rdiv. rewrite Rmult_assoc, Rinv_l, Rmult_1_r by lra.
  rewrite INR_IZR_INZ. unfold segments in *. rewrite Z2Nat.id in * by lia. unfold trunc in *. destruct (Rle_dec 0 d) as [G|G]; [|lra]. destruct (base_Int_part d) as [_ B].
  assert (I0 : (-1 < Int_part d)%Z) by (apply lt_IZR; lra).
  set (q := Z.quot (Int_part d) 60). assert (D : (Int_part d <= 60 * q + 59)%Z) by (unfold q; rewrite Z.quot_div_nonneg by lia; lia).
  assert (M1 : IZR q <= IZR (Z.max 2 q)) by (apply IZR_le; lia). assert (M2 : 2 <= IZR (Z.max 2 q)) by (apply (IZR_le 2); lia).
  apply IZR_le in D. rewrite plus_IZR, mult_IZR in D. lra.
Qed.
Lemma segments_back d : d <= 0 -> segments d = 2%nat.
Proof.
  intros H. unfold segments, trunc. assert (I0 : (0 <= Int_part (- d))%Z) by (destruct (base_Int_part (- d)) as [_ B]; assert (-1 < Int_part (- d))%Z by (apply lt_IZR; lra); lia).
  assert (Q : (Z.quot (- Int_part (- d)) 60 <= 0)%Z) by (rewrite Z.quot_opp_l by lia; pose proof (Z.quot_pos (Int_part (- d)) 60 I0 ltac:(lia)); lia).
  destruct (Rle_dec 0 d) as [G|G]; [|lia]. replace d with 0 in * by lra. destruct (base_Int_part 0) as [A B]. assert (Int_part 0 < 1)%Z by (apply lt_IZR; lra). assert (-1 < Int_part 0)%Z by (apply lt_IZR; lra). replace (Int_part 0) with 0%Z by lia. reflexivity.
Qed.
(** Arc (and Ellipse and Circle): at least two curves one after the other, from the
    angle where the arc starts to the angle where it ends, in equal steps; each
    starts and ends on the ellipse in the direction of the ellipse.  Counted
    counter-clockwise, no step is more than 90 degrees; clockwise
    there are always two curves. *)
Theorem C61_arc_partial : forall (k h : R) upper isz eqb x y rx ry rot dstart dend style, k <> 0 -> (forall r, isz r = true <-> r = 0) ->
  exists (n : nat) (t : nat -> R),
    (2 <= n)%nat /\ t 0%nat = dstart * PI / 180 /\ t n = dend * PI / 180 /\ (forall i, t (S i) - t i = (dend - dstart) * PI / 180 / INR n) /\
    (dstart <= dend -> (dend - dstart) / INR n <= 90) /\ (dend <= dstart -> n = 2%nat) /\
    paints (fst (arc keep keep k h upper isz eqb x y rx ry rot dstart dend style None)) =
    Some [(fill_draw_op upper style, map (fun i => piece k h x y rx ry (rot * PI / 180) (t i) (t (S i))) (seq 0 n))].
Proof.
  intros k h upper isz eqb x y rx ry rot dstart dend style Hk Hz. set (n := segments (dend - dstart)). set (st := dstart * PI / 180). set (dt := (dend * PI / 180 - st) / INR n).
  assert (Hn : (2 <= n)%nat) by apply segments_two. assert (Pn : INR n <> 0) by (apply not_0_INR; lia).
  exists n, (fun i => INR i * dt + st). split; [exact Hn|]. split; [cbn; ring|]. split; [unfold dt, st; field; exact Pn|].
  split; [intros i; rewrite S_INR; unfold dt, st; field; exact Pn|]. split; [intros L; apply step_bound; lra|]. split; [intros L; apply segments_back; lra|].
  unfold arc. cbv zeta. cbn [fst]. fold n. fold st. fold dt. rewrite ?app_nil_r.
  destruct (isz rot) eqn:Er; cbn [negb app].
  - apply Hz in Er. subst rot. cbn [app]. rewrite ?app_nil_r. unfold opoint. rewrite (at_pdf2 k h Hk).
    destruct (loop_segs k h Hk (app_mat id_mat) n 0 (x * k) ((h - y) * k) (rx * k) (ry * k) dt st) as [A B]. cbv zeta in A, B. change (INR 0) with 0 in A, B. rewrite !Rmult_0_l, !Rplus_0_l in A, B.
    rewrite path_paints by exact A. do 3 f_equal. rewrite app_id in B. rewrite B. apply map_ext. intros i. rewrite !app_id. unfold piece, along, heading, ellipse, turn. cbn [fst snd].
    replace (0 * PI / 180) with 0 by field. rewrite cos_0, sin_0. replace (INR (S i) * dt + st - (INR i * dt + st)) with dt by (rewrite S_INR; ring).
    f_equal; apply f_equal2; field.
  - set (m := mat_then (keep (cos (- rot * PI / 180)), keep (-1 * sin (- rot * PI / 180)), keep (sin (- rot * PI / 180)), keep (cos (- rot * PI / 180)), keep (x * k), keep ((h - y) * k)) id_mat).
    destruct (loop_segs k h Hk (app_mat m) n 0 0 0 (rx * k) (ry * k) dt st) as [A B]. cbv zeta in A, B. change (INR 0) with 0 in A, B. rewrite !Rmult_0_l, !(Rplus_0_l st) in A, B.
    unfold paints, opoint. rewrite (at_pdf2 k h Hk). cbn [grun gstep g_init g_cur g_ctm g_stack g_start g_path g_done]. fold m.
    edestruct segs_run as (q & ->); [exact A|reflexivity|]. cbn [grun gstep g_cur g_ctm g_stack g_start g_path g_done option_map app].
    do 3 f_equal. rewrite B. apply map_ext. intros i. unfold piece, along, heading, ellipse, turn. cbn [fst snd].
    subst m. unfold app_mat, mat_then, id_mat, keep. cbn [fst snd]. replace (- rot * PI / 180) with (- (rot * PI / 180)) by field. set (r := rot * PI / 180). rewrite cos_neg, sin_neg.
    replace (INR (S i) * dt + st - (INR i * dt + st)) with dt by (rewrite S_INR; ring).
    f_equal; apply f_equal2; field.
Qed.
Print Assumptions C61_arc_partial.

(** how near the curve is to the ellipse *)
Lemma sin_cos_bound th : 0 <= th <= 1 ->
  (th - th*th*th/6 <= sin th <= th - th*th*th/6 + th*th*th*th*th/120) /\ (1 - th*th/2 <= cos th <= 1 - th*th/2 + th*th*th*th/24).
Proof.
  intros [H0 H1]. destruct (pre_sin_bound th 0 H0 ltac:(lra)) as [A B]. destruct (pre_cos_bound th 0 ltac:(lra) ltac:(lra)) as [C D].
  unfold sin_approx, cos_approx, sin_term, cos_term in *. cbn -[INR] in A, B, C, D.
  replace (INR 120) with 120 in * by (rewrite INR_IZR_INZ; reflexivity).
  replace (INR 6) with 6 in * by (rewrite INR_IZR_INZ; reflexivity).
  replace (INR 24) with 24 in * by (rewrite INR_IZR_INZ; reflexivity).
  replace (INR 2) with 2 in * by (rewrite INR_IZR_INZ; reflexivity).
  replace (INR 1) with 1 in * by reflexivity. 
  split; split; [eapply Rle_trans; [|exact A]|eapply Rle_trans; [exact B|]|eapply Rle_trans; [|exact C]|eapply Rle_trans; [exact D|]]; right; field.
Qed.
Lemma PI_4_bound : PI / 4 < 8 / 10.
Proof.
  destruct (Rlt_le_dec (PI / 4) (8 / 10)) as [H|H]; [exact H|exfalso]. pose proof PI_RGT_0 as P.
  assert (C : cos (PI / 4) <= cos (8 / 10)) by (apply cos_decr_1; lra). destruct (sin_cos_bound (8 / 10)) as [_ [_ B]]; [lra|].
  pose proof cos_PI4 as E. assert (S : cos (PI / 4) * cos (PI / 4) = 1 / 2). { rewrite E. pose proof (sqrt_sqrt 2 ltac:(lra)) as Q. assert (sqrt 2 <> 0) by (intros Z0; rewrite Z0 in Q; lra). replace (1 / sqrt 2 * (1 / sqrt 2)) with (1 / (sqrt 2 * sqrt 2)) by (field; assumption). rewrite Q. reflexivity. }
  assert (0 < cos (PI / 4)) by (apply cos_gt_0; lra). nra.
Qed.
(** the unit circle, with the middle of the arc at 3 o'clock: s from -1 to 1 *)
Lemma near_circle th s : 0 <= th <= 8 / 10 -> -1 <= s <= 1 ->
  let X := cos th + th * sin th * (1 - s * s) / 2 in let Y := sin th * (s * (3 - s * s)) / 2 - th * cos th * (s * (1 - s * s)) / 2 in
  96 / 100 * (96 / 100) <= X * X + Y * Y <= 1.
Proof.
  intros H [L U] X Y. destruct (sin_cos_bound th) as [[S1 S2] [C1 C2]]; [lra|]. pose proof (sin2_cos2 th) as E. unfold Rsqr in E. 
  unfold X, Y. clear X Y. generalize dependent (sin th). generalize dependent (cos th). intros C C1 C2 S S1 S2 E. set (X := C + th * S * (1 - s * s) / 2). set (Y := S * (s * (3 - s * s)) / 2 - th * C * (s * (1 - s * s)) / 2). set (u := s * s). assert (Hu : 0 <= u <= 1) by (unfold u; nra).
  set (M := C + th * S / 2). set (a := M * M - 1). set (b := (S - th * C) * (S - th * C) / 4).
  assert (F : X * X + Y * Y = 1 + (1 - u) * (1 - u) * (a + b * u) + u * (2 - u) * (S * S + C * C - 1)) by (unfold X, Y, a, b, M, u; field).
  rewrite E in F. clearbody X Y. set (q := th * th).
  replace (th * th * th * th * th) with (th * (q * q)) in * by (unfold q; ring). replace (th * th * th * th) with (q * q) in * by (unfold q; ring). replace (th * th * th) with (th * q) in * by (unfold q; ring). fold q in C1, C2. assert (Hq : 0 <= q <= 64 / 100) by (unfold q; nra).
  assert (Q2 : 0 <= q * q <= 4096 / 10000) by nra.
  assert (S1' : q - q * q / 6 <= th * S) by (unfold q in *; nra). assert (S2' : th * S <= q - q * q / 6 + q * q * q / 120) by (unfold q in *; nra).
  assert (M1 : 1 - q * q / 12 <= M) by (unfold M; lra).
  assert (M2 : M <= 1 - q * q / 24 + q * q * q / 240) by (unfold M; lra).
  assert (Q3 : q * q * q <= 64 / 100 * (q * q)) by nra. assert (Q30 : 0 <= q * q * q) by nra.
  assert (D1 : S - th * C <= th * q * (36 / 100)) by nra. assert (D0 : 0 <= S - th * C) by nra.
  assert (B0 : 0 <= b) by (unfold b; nra).
  assert (T : 0 <= th * q) by nra.
  assert (B1 : b <= 35 / 1000 * (q * q * q)).
  { unfold b. assert ((S - th * C) * (S - th * C) <= (th * q * (36 / 100)) * (th * q * (36 / 100))) by (apply Rmult_le_compat; assumption).
    replace (th * q * (36 / 100) * (th * q * (36 / 100))) with (1296 / 10000 * (q * q * q)) in * by (unfold q; field). lra. }
  assert (A1 : a <= - (q * q) / 24 + q * q * q / 240) by (unfold a; nra).
  assert (A2 : 96 / 100 * (96 / 100) - 1 <= a). { unfold a. assert (96 / 100 <= M) by lra. nra. }
  assert (AB : a + b * u <= 0) by nra. assert (W : 0 <= (1 - u) * (1 - u) <= 1) by nra.
  rewrite F. split; [|nra]. assert (a <= a + b * u) by nra. nra.
Qed.
(** the point (u, v) of the unit disc stretched and turned to the ellipse: the
    ellipse is where the unit circle goes *)
Definition spot (k h x y rx ry rot u v : R) : point := let '(a, b) := turn rot (rx * u) (ry * v) in ((x + a) * k, (h - y + b) * k).
Lemma ellipse_spot k h x y rx ry rot t : ellipse k h x y rx ry rot t = spot k h x y rx ry rot (cos t) (sin t).
Proof. reflexivity. Qed.
Lemma piece_near k h x y rx ry rot t0 t1 s : 0 <= t1 - t0 <= PI / 2 -> 0 <= s <= 1 ->
  exists u v, 96 / 100 * (96 / 100) <= u * u + v * v <= 1 /\
  bez (ellipse k h x y rx ry rot t0) (along (ellipse k h x y rx ry rot t0) (heading k rx ry rot t0) ((t1 - t0) / 3))
      (along (ellipse k h x y rx ry rot t1) (heading k rx ry rot t1) (- ((t1 - t0) / 3))) (ellipse k h x y rx ry rot t1) s = spot k h x y rx ry rot u v.
Proof.
  intros Ht Hs. pose proof PI_4_bound as P4. set (m := (t0 + t1) / 2). set (th := (t1 - t0) / 2). set (d := (t1 - t0) / 3).
  set (u := bez1 (cos t0) (cos t0 - sin t0 * d) (cos t1 + sin t1 * d) (cos t1) s). set (v := bez1 (sin t0) (sin t0 + cos t0 * d) (sin t1 - cos t1 * d) (sin t1) s).
  exists u, v. split.
  - pose proof (near_circle th (2 * s - 1) ltac:(unfold th; lra) ltac:(lra)) as N. cbv zeta in N.
    set (X := cos th + th * sin th * (1 - (2 * s - 1) * (2 * s - 1)) / 2) in N. set (Y := sin th * ((2 * s - 1) * (3 - (2 * s - 1) * (2 * s - 1))) / 2 - th * cos th * ((2 * s - 1) * (1 - (2 * s - 1) * (2 * s - 1))) / 2) in N.
    assert (E0 : t0 = m - th) by (unfold m, th; field). assert (E1 : t1 = m + th) by (unfold m, th; field). assert (Ed : d = 2 * th / 3) by (unfold d, th; field).
    assert (U : u = cos m * X - sin m * Y). { unfold u, bez1, X, Y. rewrite E0, E1, Ed, cos_minus, sin_minus, cos_plus, sin_plus. field. }
    assert (V : v = sin m * X + cos m * Y). { unfold v, bez1, X, Y. rewrite E0, E1, Ed, cos_minus, sin_minus, cos_plus, sin_plus. field. }
    pose proof (sin2_cos2 m) as E. unfold Rsqr in E.
    replace (u * u + v * v) with ((sin m * sin m + cos m * cos m) * (X * X + Y * Y)) by (rewrite U, V; ring). rewrite E, Rmult_1_l. exact N.
  - unfold bez, along, ellipse, heading, spot, turn, u, v, bez1, d. cbn [fst snd]. apply f_equal2; field.
Qed.
(** So the outline drawn for an arc of increasing angle, for an ellipse and for a
    circle lies between the ellipse and the same ellipse shrunk to 96 percent around
    its centre. *)
Theorem C61_near_partial : forall (k h : R) upper isz eqb x y rx ry rot dstart dend style, k <> 0 -> (forall r, isz r = true <-> r = 0) -> dstart <= dend ->
  exists l, paints (fst (arc keep keep k h upper isz eqb x y rx ry rot dstart dend style None)) = Some [(fill_draw_op upper style, l)] /\
  first_of (hd (Straight (0, 0) (0, 0)) l) = ellipse k h x y rx ry (rot * PI / 180) (dstart * PI / 180) /\
  last_of (last l (Straight (0, 0) (0, 0))) = ellipse k h x y rx ry (rot * PI / 180) (dend * PI / 180) /\
  (forall pre s s' suf, l = pre ++ s :: s' :: suf -> last_of s = first_of s') /\
  forall sg, In sg l -> exists a c1 c2 b, sg = Bez a c1 c2 b /\ forall s, 0 <= s <= 1 ->
    exists u v, 96 / 100 * (96 / 100) <= u * u + v * v <= 1 /\ bez a c1 c2 b s = spot k h x y rx ry (rot * PI / 180) u v.
Proof.
  intros k h upper isz eqb x y rx ry rot dstart dend style Hk Hz Hd.
  destruct (C61_arc_partial k h upper isz eqb x y rx ry rot dstart dend style Hk Hz) as (n & t & Hn & T0 & Tn & Ts & Tb & _ & E). specialize (Tb Hd).
  eexists. split; [exact E|]. set (pc := fun i : nat => piece k h x y rx ry (rot * PI / 180) (t i) (t (S i))).
  split; [destruct n as [|n]; [lia|]; cbn [seq map hd]; unfold pc, piece; cbn [first_of]; now rewrite T0|].
  split. { destruct n as [|n]; [lia|]. rewrite seq_S, map_app. cbn [map]. rewrite last_last. unfold pc, piece. cbn [last_of Nat.add]. now rewrite Tn. }
  split.
  - intros pre s s' suf El. assert (L := f_equal (fun l => nth (List.length pre) l s) El). assert (L' := f_equal (fun l => nth (S (List.length pre)) l s') El). cbv beta in L, L'.
    assert (Ln : (List.length pre + 2 <= n)%nat) by (apply (f_equal (@List.length _)) in El; rewrite map_length, seq_length, app_length in El; cbn in El; lia).
    rewrite app_nth2 in L by lia. replace (List.length pre - List.length pre)%nat with 0%nat in L by lia. cbn [nth] in L.
    rewrite app_nth2 in L' by lia. replace (S (List.length pre) - List.length pre)%nat with 1%nat in L' by lia. cbn [nth] in L'.
    rewrite (nth_indep _ s (pc 0%nat)) in L by (rewrite map_length, seq_length; lia). rewrite (nth_indep _ s' (pc 0%nat)) in L' by (rewrite map_length, seq_length; lia).
    rewrite (map_nth pc) in L, L'. rewrite seq_nth in L, L' by lia. subst s s'. unfold pc, piece. cbn [last_of first_of Nat.add]. reflexivity.
  - intros sg Hin. apply in_map_iff in Hin as (i & <- & _). unfold pc, piece. do 4 eexists. split; [reflexivity|]. intros s Hs. apply piece_near; [|exact Hs].
    rewrite Ts. pose proof PI_RGT_0 as Pp. assert (Pn : 0 < INR n) by (apply lt_0_INR; lia).
    replace ((dend - dstart) * PI / 180 / INR n) with ((dend - dstart) / INR n * (PI / 180)) by (field; lra).
    assert (0 <= (dend - dstart) / INR n) by (apply Rmult_le_pos; [lra|left; now apply Rinv_0_lt_compat]). nra.
Qed.
Print Assumptions C61_near_partial.

(** An ellipse is closed, and a circle is the ellipse with equal radii: no point of
    its outline is farther than 4 percent of the radius from the circle. *)
Theorem C61_circle_partial : forall (k h : R) upper isz eqb x y r style, k <> 0 -> (forall r, isz r = true <-> r = 0) ->
  exists l, paints (draw_circle keep keep k h upper isz eqb x y r style) = Some [(fill_draw_op upper style, l)] /\
  first_of (hd (Straight (0, 0) (0, 0)) l) = last_of (last l (Straight (0, 0) (0, 0))) /\
  (forall pre s s' suf, l = pre ++ s :: s' :: suf -> last_of s = first_of s') /\
  forall sg, In sg l -> exists a c1 c2 b, sg = Bez a c1 c2 b /\ forall s, 0 <= s <= 1 ->
    let dx := fst (bez a c1 c2 b s) - x * k in let dy := snd (bez a c1 c2 b s) - (h - y) * k in
    96 / 100 * (96 / 100) * ((r * k) * (r * k)) <= dx * dx + dy * dy <= (r * k) * (r * k).
Proof.
  intros k h upper isz eqb x y r style Hk Hz. unfold draw_circle, draw_ellipse.
  destruct (C61_near_partial k h upper isz eqb x y r r 0 0 360 style Hk Hz ltac:(lra)) as (l & E & F & L & J & N). exists l. split; [exact E|].
  split. { rewrite F, L. unfold ellipse. replace (0 * PI / 180) with 0 by field. replace (360 * PI / 180) with (0 + 2 * PI) by field. rewrite cos_plus, sin_plus, cos_2PI, sin_2PI, cos_0, sin_0. unfold turn. apply f_equal2; ring. }
  split; [exact J|]. intros sg Hin. destruct (N sg Hin) as (a & c1 & c2 & b & -> & B). exists a, c1, c2, b. split; [reflexivity|]. intros s Hs.
  destruct (B s Hs) as (u & v & U & ->). unfold spot, turn. replace (0 * PI / 180) with 0 by field. rewrite cos_0, sin_0. cbn [fst snd].
  replace ((x + (r * u * 1 - r * v * 0)) * k - x * k) with (r * k * u) by ring. replace ((h - y + (r * u * 0 + r * v * 1)) * k - (h - y) * k) with (r * k * v) by ring.
  cbv zeta. replace (r * k * u * (r * k * u) + r * k * v * (r * k * v)) with ((u * u + v * v) * (r * k * (r * k))) by ring.
  assert (0 <= r * k * (r * k)) by apply Rle_0_sqr. split; nra.
Qed.
Print Assumptions C61_circle_partial.

(** ArcTo without rotation: a line to the start of the arc unless the path is there,
    then the arc, and the position is where it ends. *)
Theorem C61_arcto_partial : forall (k h : R) upper isz eqb x y rx ry dstart dend px py style, k <> 0 -> (forall r, isz r = true <-> r = 0) -> (forall a b, eqb a b = true <-> a = b) ->
  exists (n : nat) (t : nat -> R) ops qx qy,
    (2 <= n)%nat /\ t 0%nat = dstart * PI / 180 /\ t n = dend * PI / 180 /\ (forall i, t (S i) - t i = (dend - dstart) * PI / 180 / INR n) /\
    arc_to keep keep k h upper isz eqb x y rx ry 0 dstart dend (px, py) = (ops, Some (qx, qy)) /\
    (qx * k, (h - qy) * k) = ellipse k h x y rx ry 0 (t n) /\
    let p := (px * k, (h - py) * k) in let s := ellipse k h x y rx ry 0 (t 0%nat) in
    exists line, (line = [] /\ p = s \/ line = [Straight p s]) /\
    paints (Om p :: ops ++ [Opaint style]) = Some [(style, line ++ map (fun i => piece k h x y rx ry 0 (t i) (t (S i))) (seq 0 n))].
Proof.
  intros k h upper isz eqb x y rx ry dstart dend px py style Hk Hz He. set (n := segments (dend - dstart)). set (st := dstart * PI / 180). set (dt := (dend * PI / 180 - st) / INR n).
  assert (Hn : (2 <= n)%nat) by apply segments_two. assert (Pn : INR n <> 0) by (apply not_0_INR; lia).
  exists n, (fun i => INR i * dt + st). do 3 eexists. split; [exact Hn|]. split; [cbn; ring|]. split; [unfold dt, st; field; exact Pn|].
  split; [intros i; rewrite S_INR; unfold dt, st; field; exact Pn|].
  assert (I0 : isz 0 = true) by now apply Hz.
  split; [unfold arc_to, arc; cbv zeta; rewrite I0; cbn [negb app]; fold n; fold st; fold dt; reflexivity|].
  split. { unfold ellipse, turn. cbn [fst snd]. rewrite cos_0, sin_0. apply f_equal2; field; exact Hk. }
  cbv zeta. change (INR 0) with 0. rewrite Rmult_0_l, Rplus_0_l.
  destruct (loop_segs k h Hk (app_mat id_mat) n 0 (x * k) ((h - y) * k) (rx * k) (ry * k) dt st) as [A B]. cbv zeta in A, B. change (INR 0) with 0 in A, B. rewrite !Rmult_0_l, !Rplus_0_l in A, B.
  assert (PE : forall i, Bez (x * k + rx * k * cos (INR i * dt + st), (h - y) * k + ry * k * sin (INR i * dt + st))
     (x * k + rx * k * cos (INR i * dt + st) + - (rx * k) * sin (INR i * dt + st) * (dt / 3), (h - y) * k + ry * k * sin (INR i * dt + st) + ry * k * cos (INR i * dt + st) * (dt / 3))
     (x * k + rx * k * cos (INR (S i) * dt + st) - - (rx * k) * sin (INR (S i) * dt + st) * (dt / 3), (h - y) * k + ry * k * sin (INR (S i) * dt + st) - ry * k * cos (INR (S i) * dt + st) * (dt / 3))
     (x * k + rx * k * cos (INR (S i) * dt + st), (h - y) * k + ry * k * sin (INR (S i) * dt + st)) = piece k h x y rx ry 0 (INR i * dt + st) (INR (S i) * dt + st)).
  { intros i. unfold piece, along, heading, ellipse, turn. cbn [fst snd]. rewrite cos_0, sin_0. replace (INR (S i) * dt + st - (INR i * dt + st)) with dt by (rewrite S_INR; ring). f_equal; apply f_equal2; field. }
  assert (B' : segs (app_mat id_mat) (ellipse k h x y rx ry 0 st) (arc_loop keep k h n 1 (x * k) ((h - y) * k) (rx * k) (ry * k) dt st (x * k + rx * k * cos st) ((h - y) * k + ry * k * sin st) (- (rx * k) * sin st) (ry * k * cos st)) =
     map (fun i => piece k h x y rx ry 0 (INR i * dt + st) (INR (S i) * dt + st)) (seq 0 n)).
  { replace (ellipse k h x y rx ry 0 st) with (x * k + rx * k * cos st, (h - y) * k + ry * k * sin st) by (unfold ellipse, turn; rewrite cos_0, sin_0; apply f_equal2; ring). rewrite app_id in B. rewrite B. apply map_ext. intros i. rewrite !app_id. apply PE. }
  assert (S0 : at2 keep k h ((x * k + rx * k * cos st) / k) (h - ((h - y) * k + ry * k * sin st) / k) = ellipse k h x y rx ry 0 st).
  { rewrite (at_pdf2 k h Hk). unfold ellipse, turn. rewrite cos_0, sin_0. apply f_equal2; ring. }
  cbn [fst snd]. destruct (eqb px ((x * k + rx * k * cos st) / k) && eqb py (h - ((h - y) * k + ry * k * sin st) / k))%bool eqn:Ee.
  - apply andb_prop in Ee as [E1 E2]. apply He in E1, E2. exists []. assert (P0 : (px * k, (h - py) * k) = ellipse k h x y rx ry 0 st).
    { rewrite <- S0, E1, E2. reflexivity. }
    split; [left; now split|]. cbn [app]. rewrite ?app_nil_r. rewrite path_paints by exact A. rewrite P0, B'. reflexivity.
  - exists [Straight (px * k, (h - py) * k) (ellipse k h x y rx ry 0 st)]. split; [now right|]. cbn [app]. rewrite ?app_nil_r. rewrite S0.
    etransitivity; [exact (path_paints (Ol (ellipse k h x y rx ry 0 st) :: _) _ style A)|]. cbn [segs]. rewrite app_id, B'. reflexivity.
Qed.
Print Assumptions C61_arcto_partial.
(** With a rotation ArcTo writes q and cm inside the path, which is not allowed. *)
Theorem C61_rotated_arcto_refuted : forall (k h : R) upper isz eqb x y rx ry rot dstart dend pos p style, isz rot = false ->
  paints (Om p :: fst (arc_to keep keep k h upper isz eqb x y rx ry rot dstart dend pos) ++ [Opaint style]) = None.
Proof. intros k h upper isz eqb x y rx ry rot dstart dend pos p style H. unfold arc_to, arc. cbv zeta. rewrite H. cbn [negb fst]. reflexivity. Qed.
Print Assumptions C61_rotated_arcto_refuted.
(** With decreasing angles a whole circle is drawn with two curves that miss it by a
    fifth of the radius. *)
Theorem C61_backward_refuted : forall upper isz eqb style, (forall r, isz r = true <-> r = 0) ->
  exists a c1 c2 b l, paints (fst (arc keep keep 1 0 upper isz eqb 0 0 1 1 0 360 0 style None)) = Some [(fill_draw_op upper style, Bez a c1 c2 b :: l)] /\
  let p := bez a c1 c2 b (1 / 2) in fst p * fst p + snd p * snd p < 64 / 100.
Proof.
  intros upper isz eqb style Hz. destruct (C61_arc_partial 1 0 upper isz eqb 0 0 1 1 0 360 0 style ltac:(lra) Hz) as (n & t & Hn & T0 & Tn & Ts & _ & N2 & E).
  specialize (N2 ltac:(lra)). subst n. rewrite E. do 5 eexists. split; [cbn [seq map]; unfold piece; reflexivity|].
  assert (T1 : t 1%nat = PI) by (pose proof (Ts 0%nat) as Q; rewrite T0 in Q; cbn in Q; lra). rewrite T0, T1.
  replace (360 * PI / 180) with (0 + 2 * PI) by field. replace (0 * PI / 180) with 0 by field. unfold ellipse, heading, along, turn. rewrite cos_plus, sin_plus, cos_2PI, sin_2PI, cos_0, sin_0, cos_PI, sin_PI.
  cbv zeta. unfold bez, bez1. cbn [fst snd]. pose proof PI_4_bound as P4. pose proof PI_RGT_0 as P0.
  match goal with |- ?X * ?X + ?Y * ?Y < _ => replace X with 0 by field; replace Y with (- (PI / 4)) by field end. nra.
Qed.
Print Assumptions C61_backward_refuted.
(** tests for zero and equality of real numbers exist *)
Example C61_case : (exists isz : R -> bool, forall r, isz r = true <-> r = 0) /\ (exists eqb : R -> R -> bool, forall a b, eqb a b = true <-> a = b) /\ (2 : R) <> 0 /\ 30 <= (90 : R).
Proof.
  split; [exists (fun r => if Req_EM_T r 0 then true else false); intros r; destruct (Req_EM_T r 0); split; easy|].
  split; [exists (fun a b => if Req_EM_T a b then true else false); intros a b; destruct (Req_EM_T a b); split; easy|]. split; lra.
Qed.
