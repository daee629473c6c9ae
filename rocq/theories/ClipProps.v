(** C73: clipping and gradients. *)
From Coq Require Import Reals Lra Psatz.
From Verif Require Import Base TextModel TextSpec TextProofs LineSpec CellModel CellSpec CellProofs DrawSpec DrawModel ClipSpec ClipModel.
From Coq Require Import String.
Local Open Scope list_scope.
Local Open Scope R_scope.
Notation length := List.length.

(** ** The calls of a drawing *)
Section Calls.
  Variable str : list Z -> bytes.            (* the Go string for characters *)
  Definition args_of (s : shape) : clip_args :=
    match s with
    | ARect x y w h => CRect x y w h | AText x y codes => CText x y (str codes) | ARound x y w h a b c d => CRound x y w h a b c d
    | AEllipse x y rx ry => CEllipse x y rx ry | APoly l => CPoly l
    end.
  Fixpoint calls_of (f : fig) : list kcall :=
    match f with
    | FLine a b => [KLine a b] | FRect x y w h s => [KRect x y w h s] | FPoly l s => [KPoly l s]
    | FLinear x y w h c1 c2 x1 y1 x2 y2 => [KGrad 2 x y w h c1 c2 x1 y1 x2 y2 0]
    | FRadial x y w h c1 c2 x1 y1 x2 y2 r => [KGrad 3 x y w h c1 c2 x1 y1 x2 y2 r]
    | FClip s o body => KClip (args_of s) o :: flat_map calls_of body ++ [KClipEnd]
    | FTrans ms body => KBegin :: map KTransform ms ++ flat_map calls_of body ++ [KEnd]
    end.
End Calls.
(** no clip by a polygon without corners *)
Fixpoint proper (f : fig) : bool :=
  match f with
  | FClip s _ body => match s with APoly [] => false | _ => true end && forallb proper body
  | FTrans _ body => forallb proper body
  | _ => true
  end.

Lemma fig_rect (P : fig -> Prop) (Q : list fig -> Prop) :
  (forall a b, P (FLine a b)) -> (forall x y w h s, P (FRect x y w h s)) -> (forall l s, P (FPoly l s)) ->
  (forall x y w h c1 c2 x1 y1 x2 y2, P (FLinear x y w h c1 c2 x1 y1 x2 y2)) -> (forall x y w h c1 c2 x1 y1 x2 y2 r, P (FRadial x y w h c1 c2 x1 y1 x2 y2 r)) ->
  (forall s o b, Q b -> P (FClip s o b)) -> (forall ms b, Q b -> P (FTrans ms b)) ->
  Q [] -> (forall f l, P f -> Q l -> Q (f :: l)) -> forall f, P f.
Proof.
  intros H1 H2 H3 H4 H5 H6 H7 N C. fix F 1. assert (L : forall l, Q l) by (fix L 1; intros [|f l]; [exact N|apply C; [apply F|apply L]]).
  intros [ | | | | |s o b|ms b]; [apply H1|apply H2|apply H3|apply H4|apply H5|apply H6, L|apply H7, L].
Qed.

(** ** Nearness *)
Lemma rabs_tri a b c e1 e2 : Rabs (a - b) <= e1 -> Rabs (b - c) <= e2 -> Rabs (a - c) <= e1 + e2.
Proof. intros. replace (a - c) with ((a - b) + (b - c)) by ring. eapply Rle_trans; [apply Rabs_triang|lra]. Qed.
Lemma near_refl e p : 0 <= e -> near e p p.
Proof. intros H. unfold near. rewrite !Rminus_diag_eq, Rabs_R0 by reflexivity. now split. Qed.

Section Main.
  Variables (rd2 rd5 rd3 : R -> R).
  Hypothesis N2 : forall r, Rabs (rd2 r - r) <= 1 / 200.
  Hypothesis N5 : forall r, Rabs (rd5 r - r) <= 1 / 200000.
  Variables (k h : R).
  Variable upper : bytes -> bytes.
  Variable isz : R -> bool.
  Hypothesis Hz : forall r, isz r = true <-> r = 0.
  Variable two : bool.
  Variable str : list Z -> bytes.
  Notation e := (1 / 100).
  Notation P := (pt k h).
  Notation at2 := (DrawModel.at2 rd2 k h). Notation at5 := (DrawModel.at5 rd5 k h).

  Lemma near2 x y : near e (at2 x y) (P x y).
  Proof. unfold near, DrawModel.at2, pt. cbn [fst snd]. pose proof (N2 (x * k)). pose proof (N2 ((h - y) * k)). lra. Qed.
  Lemma near5 x y : near e (at5 x y) (P x y).
  Proof. unfold near, DrawModel.at5, pt. cbn [fst snd]. pose proof (N5 (x * k)). pose proof (N5 ((h - y) * k)). lra. Qed.
  Lemma near5' x y x' y' : x' = x -> y' = y -> near e (at5 x' y') (P x y).
  Proof. intros -> ->. apply near5. Qed.

  (** a viewer between two objects of the page *)
  Definition at_rest (z : vstate) : Prop := v_cur z = None /\ v_path z = [] /\ v_W z = false.

  (** runs of path operators *)
  Definition path_op (o : op) : bool := match o with Ol _ | Oc _ _ _ | Ov _ _ => true | _ => false end.
  Fixpoint path_segs (p : point) (l : list op) : list seg * point :=
    match l with
    | Ol q :: t => let '(s, r) := path_segs q t in (Straight p q :: s, r)
    | Oc c1 c2 q :: t => let '(s, r) := path_segs q t in (Bez p c1 c2 q :: s, r)
    | Ov c2 q :: t => let '(s, r) := path_segs q t in (Bez p p c2 q :: s, r)
    | _ => ([], p)
    end.
  Lemma path_run : forall l z p rest, forallb path_op l = true -> v_cur z = Some p -> v_W z = false ->
    vrun two (map G l ++ rest) z = vrun two rest (grow z (fst (path_segs p l)) (snd (path_segs p l)) (v_start z)).
  Proof.
    induction l as [|o l IH]; intros z p rest H C W0.
    - cbn [map app path_segs fst snd]. f_equal. destruct z; cbn in *. unfold grow; cbn. rewrite app_nil_r. now rewrite C.
    - cbn [forallb] in H. apply andb_prop in H as [H1 H2].
      destruct o; try discriminate H1; cbn [map app vrun vstep]; rewrite C, W0; cbn [path_segs];
        match goal with |- vrun _ _ (grow z ?s ?q ?st) = _ => rewrite (IH (grow z s q st) q _ H2 eq_refl W0) end; destruct (path_segs _ l) as [s r]; cbn [fst snd]; f_equal; unfold grow; cbn; now rewrite <- app_assoc.
  Qed.

  Notation outline := (ClipSpec.outline k h). Notation mask_of := (ClipSpec.mask_of k h). Notation border := (ClipSpec.border k h).
  Notation near_list := (Forall2 (seg_near e)).
  (** the operators of an outline draw [L] and end at [cur] in a part that started at [st] *)
  Definition draws (ops : list cop) (L : list seg) (cur st : point) : Prop :=
    forall z rest, at_rest z -> vrun two (ops ++ rest) z = vrun two rest (grow z L cur st).
  Definition moved (z z' : vstate) (clips : list mask) (ev : list event) : Prop :=
    at_rest z' /\ v_ctm z' = v_ctm z /\ v_stack z' = (v_ctm z, v_clips z) :: v_stack z /\ v_clips z' = v_clips z ++ clips /\ v_done z' = v_done z ++ ev.
  Lemma clip_path ops L cur st o z : draws ops L cur st -> at_rest z ->
    exists z', (forall rest, vrun two ((G Oq :: ops ++ [W; S_or_n o]) ++ rest) z = vrun two rest z') /\
      moved z z' [Inside (v_ctm z) L] (if o then [Painted (v_clips z) (v_ctm z) (bs "S") L] else []).
  Proof.
    intros D (R1 & R2 & R3).
    set (z1 := {| v_ctm := v_ctm z; v_clips := v_clips z; v_stack := (v_ctm z, v_clips z) :: v_stack z; v_cur := None; v_start := v_start z; v_path := v_path z; v_W := v_W z; v_done := v_done z |}).
    assert (A1 : at_rest z1) by (now repeat split).
    exists (finish {| v_ctm := v_ctm z; v_clips := v_clips z; v_stack := (v_ctm z, v_clips z) :: v_stack z; v_cur := Some cur; v_start := st; v_path := L; v_W := true; v_done := v_done z |}
                             (if o then [Painted (v_clips z) (v_ctm z) (bs "S") L] else [])).
    split; [|now repeat split].
    intros rest. cbn [app vrun vstep]. rewrite R1. fold z1. rewrite <- app_assoc. rewrite (D z1 _ A1). unfold grow. cbn [app vrun vstep v_cur z1 v_ctm v_clips v_stack v_start v_path v_W v_done]. rewrite R2, app_nil_l. destruct o; reflexivity.
  Qed.
  Lemma draws_path p l : forallb path_op l = true -> draws (G (Om p) :: map G l) (fst (path_segs p l)) (snd (path_segs p l)) p.
  Proof.
    intros H z rest (R1 & R2 & R3). cbn [app vrun vstep]. rewrite R3. rewrite (path_run l _ p) by (auto; exact R3). f_equal. unfold grow. cbn. now rewrite R2.
  Qed.
  (** closed with h *)
  Lemma draws_closed p l : forallb path_op l = true -> draws (G (Om p) :: map G l ++ [G Oh]) (fst (path_segs p l) ++ [Straight (snd (path_segs p l)) p]) p p.
  Proof.
    intros H z rest R. rewrite app_comm_cons, <- app_assoc. rewrite (draws_path p l H z _ R). destruct R as (R1 & R2 & R3). cbn [app vrun vstep grow v_cur v_W v_start]. rewrite R3. f_equal. unfold grow. cbn. now rewrite R2.
  Qed.
  Lemma draws_re p w ht : let b := (fst p + w, snd p) in let c := (fst p + w, snd p + ht) in let d := (fst p, snd p + ht) in
    draws [G (Ore p w ht)] [Straight p b; Straight b c; Straight c d; Straight d p] p p.
  Proof. intros b c d z rest (R1 & R2 & R3). cbn [app vrun vstep]. rewrite R3. reflexivity. Qed.

  (** ** Outlines *)
  Lemma box_near x y w ht : let p := at2 x y in let b := (fst p + rd2 (w * k), snd p) in let c := (fst p + rd2 (w * k), snd p + rd2 (- ht * k)) in let d := (fst p, snd p + rd2 (- ht * k)) in
    near_list [Straight p b; Straight b c; Straight c d; Straight d p] (box k h x y w ht).
  Proof.
    cbv zeta. unfold DrawModel.at2. cbn [fst snd].
    pose proof (N2 (x * k)) as A1. pose proof (N2 ((h - y) * k)) as A2. pose proof (N2 (w * k)) as A3. pose proof (N2 (- ht * k)) as A4.
    assert (B1 : Rabs (rd2 (x * k) + rd2 (w * k) - (x + w) * k) <= e). { replace (rd2 (x * k) + rd2 (w * k) - (x + w) * k) with ((rd2 (x * k) - x * k) + (rd2 (w * k) - w * k)) by ring. eapply Rle_trans; [apply Rabs_triang|lra]. }
    assert (B2 : Rabs (rd2 ((h - y) * k) + rd2 (- ht * k) - (h - (y + ht)) * k) <= e). { replace (rd2 ((h - y) * k) + rd2 (- ht * k) - (h - (y + ht)) * k) with ((rd2 ((h - y) * k) - (h - y) * k) + (rd2 (- ht * k) - - ht * k)) by ring. eapply Rle_trans; [apply Rabs_triang|lra]. }
    unfold box, pt. apply Forall2_cons; [|apply Forall2_cons; [|apply Forall2_cons; [|apply Forall2_cons; [|apply Forall2_nil]]]]; (split; split; cbn [fst snd]; lra).
  Qed.
  Lemma last_dft (l : list point) : forall a d, last (a :: l) d = last l a.
  Proof. induction l as [|b l IH]; intros a d; [reflexivity|]. change (last (a :: b :: l) d) with (last (b :: l) d). now rewrite !IH. Qed.
  Lemma joined_near : forall l p p', near e p p' -> near_list (fst (path_segs p (map (fun q => Ol (at5 (fst q) (snd q))) l))) (joined p' (map (fun q => P (fst q) (snd q)) l)) /\
    near e (snd (path_segs p (map (fun q => Ol (at5 (fst q) (snd q))) l))) (last (map (fun q => P (fst q) (snd q)) l) p').
  Proof.
    induction l as [|q l IH]; intros p p' Hp; [now split; [constructor|]|]. cbn [map path_segs joined].
    destruct (IH (at5 (fst q) (snd q)) (P (fst q) (snd q)) (near5 _ _)) as [A B].
    destruct (path_segs _ (map _ l)) as [s r]. cbn [fst snd] in *. split.
    - constructor; [split; [exact Hp|apply near5]|exact A].
    - rewrite last_dft. exact B.
  Qed.
  Lemma joined_last l p q : joined p (l ++ [q]) = joined p l ++ [Straight (last l p) q].
  Proof. revert p. induction l as [|r l IH]; intros p; [reflexivity|]. cbn [app joined]. rewrite IH. now rewrite last_dft. Qed.

  Ltac pin := apply near5'; unfold kappa; field.
  Ltac pins := repeat first [apply Forall2_nil | apply Forall2_cons; [first [split; [pin|split; [pin|split; pin]]|split; pin]|]].
  Lemma shape_near s o : match s with APoly [] => False | AText _ _ _ => False | _ => True end ->
    exists ops L cur st, clip_ops rd2 rd5 k h isz (args_of str s) o = G Oq :: ops ++ [W; S_or_n o] /\ draws ops L cur st /\ near_list L (outline s) /\
      (forall m, mask_of m s = Inside m (outline s)) /\ forall c m, border c m s = Painted c m (bs "S") (outline s).
  Proof.
    destruct s as [x y w ht|x y codes|x y w ht tl tr br bl|x y rx ry|[|p l]]; intros Hs; try destruct Hs; cbn [args_of clip_ops].
    - do 4 eexists. split; [exact (eq_refl (G Oq :: [_] ++ [W; S_or_n o]))|]. split; [apply draws_re|]. split; [apply box_near|split; reflexivity].
    - set (rp := rounded_path rd5 k h isz (sqrt 2) x y w ht tl tr br bl).
      exists (map G rp), (fst (path_segs (at5 (x + tl) y) (List.tl rp))), (snd (path_segs (at5 (x + tl) y) (List.tl rp))), (at5 (x + tl) y).
      split; [reflexivity|]. split; [|split; [|split; reflexivity]].
      + change (map G rp) with (G (Om (at5 (x + tl) y)) :: map G (List.tl rp)). apply draws_path. unfold rp, rounded_path. cbn [List.tl]. destruct (isz tr), (isz br), (isz bl), (isz tl); reflexivity.
      + unfold rp, rounded_path. cbv zeta. cbn [List.tl ClipSpec.outline]. unfold corner.
        assert (Hc : forall r, isz r = if Req_EM_T r 0 then true else false). { intros r. destruct (Req_EM_T r 0) as [E|E]; [now apply Hz|]. destruct (isz r) eqn:F; [|reflexivity]. now apply Hz in F. }
        rewrite !Hc. destruct (Req_EM_T tr 0), (Req_EM_T br 0), (Req_EM_T bl 0), (Req_EM_T tl 0); subst; cbn [app path_segs fst snd]; pins.
    - set (lx := 4 / 3 * rx * (sqrt 2 - 1)). set (ly := 4 / 3 * ry * (sqrt 2 - 1)).
      set (arc x1 y1 x2 y2 x3 y3 := Oc (at5 x1 y1) (at5 x2 y2) (at5 x3 y3)).
      set (ops := [arc (x + rx) (y - ly) (x + lx) (y - ry) x (y - ry); arc (x - lx) (y - ry) (x - rx) (y - ly) (x - rx) y;
         arc (x - rx) (y + ly) (x - lx) (y + ry) x (y + ry); arc (x + lx) (y + ry) (x + rx) (y + ly) (x + rx) y]).
      exists (G (Om (at5 (x + rx) y)) :: map G ops), (fst (path_segs (at5 (x + rx) y) ops)), (snd (path_segs (at5 (x + rx) y) ops)), (at5 (x + rx) y).
      split; [reflexivity|]. split; [apply draws_path; reflexivity|]. split; [|split; reflexivity].
      unfold ops, arc. cbn [path_segs fst snd ClipSpec.outline]. unfold lx, ly. pins.
    - set (ops := map (fun q : point => Ol (at5 (fst q) (snd q))) l).
      exists (G (Om (at5 (fst p) (snd p))) :: map G ops ++ [G Oh]). eexists _, _, _.
      split; [|split; [apply draws_closed|]].
      + unfold ops. rewrite map_map. cbn [app]. rewrite <- app_assoc. reflexivity.
      + unfold ops. induction l as [|q l IH]; [reflexivity|exact IH].
      + split; [|split; reflexivity]. cbn [ClipSpec.outline]. rewrite map_app. cbn [map]. rewrite joined_last.
        destruct (joined_near l (at5 (fst p) (snd p)) (P (fst p) (snd p)) (near5 _ _)) as [A B]. apply Forall2_app; [exact A|].
        apply Forall2_cons; [|apply Forall2_nil]. split; [exact B|apply near5].
  Qed.

  (** ** Text *)
  Lemma clip_text x y codes o z : codes_of two (textstring (str codes)) = Some codes -> at_rest z ->
    exists z', (forall rest, vrun two (clip_ops rd2 rd5 k h isz (args_of str (AText x y codes)) o ++ rest) z = vrun two rest z') /\
      moved z z' [Glyphs (v_ctm z) (at5 x y) codes] (if o then [Stroked (v_clips z) (v_ctm z) (at5 x y) codes] else []).
  Proof.
    intros Hc (R1 & R2 & R3). eexists. split.
    - intros rest. cbn [args_of clip_ops app vrun vstep]. rewrite R1. cbn [v_cur]. rewrite Hc. reflexivity.
    - unfold moved, at_rest. cbn. destruct o; repeat split; assumption.
  Qed.

  (** ** Drawings *)
  Notation how := (fill_draw_op upper).
  Definition shown (m : matrix) : matrix := let '(a, b, c, d, u, v) := m in (rd5 a, rd5 b, rd5 c, rd5 d, rd5 u, rd5 v).
  Notation sees := (ClipSpec.sees k h how shown). Notation sees_all := (ClipSpec.sees_all k h how shown).
  Notation kcalls := (ClipModel.kcalls rd2 rd5 rd3 k h upper isz).
  Definition grad_of (g : grad_spec) : grad := let '(tp, c1, c2, xy) := g in {| q_tp := tp; q_c1 := rgb3 rd3 c1; q_c2 := rgb3 rd3 c2; q_xy := xy |}.
  Definition next (s : pst) : Z := Z.of_nat (S (length (p_grads s))).
  Definition texts (l : list Z) : Prop := codes_of two (textstring (str l)) = Some l.
  Hypothesis Htext : forall l, texts l.
  (** what a run of calls did: wrote [ops], added the gradients [gr] and left the contexts alone; a
      viewer at rest comes to rest with the same clips and matrix and has seen [ev] *)
  Definition did (s s' : pst) (ops : list cop) (gr : list grad) : Prop :=
    s' = {| p_clip := p_clip s; p_trans := p_trans s; p_err := p_err s; p_grads := p_grads s ++ gr; p_ops := p_ops s ++ ops |}.
  Definition seen (ops : list cop) (z : vstate) (ev : list event) : Prop :=
    exists z', (forall rest, vrun two (ops ++ rest) z = vrun two rest z') /\ at_rest z' /\ v_ctm z' = v_ctm z /\ v_clips z' = v_clips z /\ v_stack z' = v_stack z /\ v_done z' = v_done z ++ ev.
  Definition fig_ok (calls : list kcall) (gs : list grad_spec) (what : list mask -> matrix -> Z -> list event * Z) : Prop :=
    forall s, p_err s = false -> exists ops, did s (kcalls calls s) ops (map grad_of gs) /\
      forall z c, at_rest z -> Forall2 (mask_near e) (v_clips z) c ->
        exists ev, seen ops z ev /\ Forall2 (event_near e) ev (fst (what c (v_ctm z) (next s))) /\ snd (what c (v_ctm z) (next s)) = (next s + Z.of_nat (length gs))%Z.

  Lemma kcalls_app l1 l2 s : kcalls (l1 ++ l2) s = kcalls l2 (kcalls l1 s).
  Proof. unfold ClipModel.kcalls. now rewrite fold_left_app. Qed.
  (** one path painted *)
  Lemma paint_path ops L cur st ho z : draws ops L cur st -> at_rest z -> seen (ops ++ [G (Opaint ho)]) z [Painted (v_clips z) (v_ctm z) ho L].
  Proof.
    intros D R. destruct R as (R1 & R2 & R3). eexists. split.
    - intros rest. rewrite <- app_assoc. rewrite (D z _ ltac:(now repeat split)). cbn [app vrun vstep grow v_cur]. reflexivity.
    - unfold finish, grow, at_rest. cbn. rewrite R3, R2, !app_nil_r. repeat split.
  Qed.
  Lemma one_put l s : did s (put l s) l [].
  Proof. unfold did, put. now rewrite app_nil_r. Qed.

  Lemma line_ok a b : fig_ok [KLine a b] [] (fun c m j => sees c m j (FLine a b)).
  Proof.
    intros s Hs. eexists. split; [apply one_put|]. intros z c R Hc. eexists. split; [|split].
    - apply (paint_path [G (Om _); G (Ol _)] _ _ _ _ z (draws_path _ [Ol _] eq_refl) R).
    - cbn. apply Forall2_cons; [|apply Forall2_nil]. split; [exact Hc|]. split; [reflexivity|]. split; [reflexivity|]. apply Forall2_cons; [|apply Forall2_nil]. split; apply near2.
    - cbn. unfold next. lia.
  Qed.
  Lemma rect_ok x y w ht style : fig_ok [KRect x y w ht style] [] (fun c m j => sees c m j (FRect x y w ht style)).
  Proof.
    intros s Hs. eexists. split; [apply one_put|]. intros z c R Hc. eexists. split; [|split].
    - apply (paint_path [G (Ore _ _ _)] _ _ _ _ z (draws_re _ _ _) R).
    - cbn [ClipSpec.sees fst]. apply Forall2_cons; [|apply Forall2_nil]. split; [exact Hc|]. split; [reflexivity|]. split; [reflexivity|]. apply box_near.
    - cbn. unfold next. lia.
  Qed.
  Lemma poly_ok l style : fig_ok [KPoly l style] [] (fun c m j => sees c m j (FPoly l style)).
  Proof.
    intros s Hs. eexists. split; [apply one_put|]. intros z c R Hc. destruct l as [|p [|p' [|p'' l]]].
    1-3: exists []; (split; [|split; [apply Forall2_nil|cbn; unfold next; lia]]); exists z; (split; [reflexivity|]); rewrite app_nil_r; repeat split; apply R.
    set (t := p' :: p'' :: l). set (ops := map (fun q : point => Ol (at5 (fst q) (snd q))) (t ++ [p])).
    assert (Hd : forallb path_op ops = true) by (unfold ops; generalize (t ++ [p]); intros u; induction u as [|q u IH]; [reflexivity|exact IH]).
    eexists. split; [|split].
    - assert (E : map G (polygon rd2 rd5 k h upper (p :: p' :: p'' :: l) style) = (G (Om (at2 (fst p) (snd p))) :: map G ops) ++ [G (Opaint (how style))]).
      { unfold ops. rewrite map_app. cbn [polygon]. fold t. unfold opoint. cbn [map app]. rewrite !map_app, <- app_assoc. reflexivity. }
      match goal with |- seen ?o z _ => replace o with ((G (Om (at2 (fst p) (snd p))) :: map G ops) ++ [G (Opaint (how style))]) by (symmetry; exact E) end.
      apply (paint_path _ _ _ _ _ z (draws_path _ ops Hd) R).
    - cbn [ClipSpec.sees fst]. fold t. apply Forall2_cons; [|apply Forall2_nil]. split; [exact Hc|]. split; [reflexivity|]. split; [reflexivity|].
      unfold ops. cbn [ClipSpec.outline]. apply (joined_near (t ++ [p])). apply near2.
    - cbn. unfold next. lia.
  Qed.
  Lemma grad_ok tp x y w ht c1 c2 x1 y1 x2 y2 r :
    fig_ok [KGrad tp x y w ht c1 c2 x1 y1 x2 y2 r] [(tp, c1, c2, (x1, y1, x2, y2, r))]
      (fun c m j => ([Shaded (c ++ [Inside m (box k h x y w ht)]) (mat_then (unit_to k h x y w ht) m) j], (j + 1)%Z)).
  Proof.
    intros s Hs. eexists. split; [unfold did; cbn [ClipModel.kcalls fold_left kexec]; unfold put; cbn; reflexivity|]. intros z c R Hc. pose proof R as (R1 & R2 & R3).
    eexists. split; [|split].
    - eexists. split.
      + intros rest. cbn [app vrun vstep]. rewrite R1. cbn [v_cur v_W]. rewrite R3. unfold grow. cbn [vrun vstep v_cur v_ctm v_clips v_stack v_start v_path v_W v_done]. unfold finish. cbn [v_cur v_ctm v_clips v_stack v_start v_path v_W v_done].
        rewrite R2. cbn [app]. reflexivity.
      + unfold at_rest. cbn. rewrite app_nil_r. repeat split.
    - cbn [fst]. apply Forall2_cons; [|apply Forall2_nil]. split; [|split].
      + apply Forall2_app; [exact Hc|]. apply Forall2_cons; [|apply Forall2_nil]. split; [reflexivity|]. apply box_near.
      + reflexivity.
      + exists (rd5 (w * k), 0, 0, rd5 (ht * k), rd5 (x * k), rd5 ((h - (y + ht)) * k)), (unit_to k h x y w ht), (v_ctm z). split; [reflexivity|]. split; [reflexivity|]. intros a b Ha Hb. unfold near, unit_to, app_mat, pt. cbn [fst snd].
        pose proof (N5 (w * k)) as A1. pose proof (N5 (ht * k)) as A2. pose proof (N5 (x * k)) as A3. pose proof (N5 ((h - (y + ht)) * k)) as A4.
        split.
        * replace (rd5 (w * k) * a + 0 * b + rd5 (x * k) - (w * k * a + 0 * b + x * k)) with ((rd5 (w * k) - w * k) * a + (rd5 (x * k) - x * k)) by ring. eapply Rle_trans; [apply Rabs_triang|]. rewrite Rabs_mult, (Rabs_pos_eq a) by lra. pose proof (Rabs_pos (rd5 (w * k) - w * k)). nra.
        * replace (0 * a + rd5 (ht * k) * b + rd5 ((h - (y + ht)) * k) - (0 * a + ht * k * b + (h - (y + ht)) * k)) with ((rd5 (ht * k) - ht * k) * b + (rd5 ((h - (y + ht)) * k) - (h - (y + ht)) * k)) by ring.
          eapply Rle_trans; [apply Rabs_triang|]. rewrite Rabs_mult, (Rabs_pos_eq b) by lra. pose proof (Rabs_pos (rd5 (ht * k) - ht * k)). nra.
    - reflexivity.
  Qed.
  Lemma clip_ok s o body : match s with APoly [] => false | _ => true end = true -> fig_ok (flat_map (calls_of str) body) (flat_map gradients body) (fun c m j => sees_all c m j body) ->
    fig_ok (calls_of str (FClip s o body)) (gradients (FClip s o body)) (fun c m j => sees c m j (FClip s o body)).
  Proof.
    intros Hp IH st Hs. cbn [calls_of gradients].
    set (s1 := kexec rd2 rd5 rd3 k h upper isz (KClip (args_of str s) o) st). destruct (IH s1 Hs) as (ops & D & V).
    exists (clip_ops rd2 rd5 k h isz (args_of str s) o ++ ops ++ [G OQ]). split.
    - unfold did in *. change (KClip (args_of str s) o :: flat_map (calls_of str) body ++ [KClipEnd]) with ([KClip (args_of str s) o] ++ flat_map (calls_of str) body ++ [KClipEnd]).
      rewrite !kcalls_app. change (kcalls [KClip (args_of str s) o] st) with s1. rewrite D. unfold s1. cbn. rewrite Hs. unfold put. cbn. now rewrite <- !app_assoc.
    - intros z c R Hc.
      assert (B : exists z' mk, (forall rest, vrun two (clip_ops rd2 rd5 k h isz (args_of str s) o ++ rest) z = vrun two rest z') /\
         (exists ev, moved z z' [mk] ev /\ Forall2 (event_near e) ev (if o then [border c (v_ctm z) s] else [])) /\ mask_near e mk (mask_of (v_ctm z) s)).
      { destruct s as [x y w h'|x y codes|x y w h' a b' c' d|x y rx ry|l].
        2:{ destruct (clip_text x y codes o z (Htext codes) R) as (z' & E & M). exists z', (Glyphs (v_ctm z) (at5 x y) codes). split; [exact E|]. split.
            - eexists. split; [exact M|]. destruct o; [|apply Forall2_nil]. apply Forall2_cons; [|apply Forall2_nil]. split; [exact Hc|]. split; [reflexivity|]. split; [apply near5|reflexivity].
            - split; [reflexivity|]. split; [apply near5|reflexivity]. }
        all: match goal with |- context [mask_of _ ?s] => destruct (shape_near s o) as (ops0 & L & cur & st0 & E & Dr & Nr & Em & Eb); [first [exact I|destruct l; [discriminate Hp|exact I]]|] end;
          rewrite E, Em; destruct (clip_path ops0 L cur st0 o z Dr R) as (z' & F & M); exists z', (Inside (v_ctm z) L);
          (split; [exact F|]); (split; [|split; [reflexivity|exact Nr]]); eexists; (split; [exact M|]);
          (destruct o; [|apply Forall2_nil]); rewrite Eb; (apply Forall2_cons; [|apply Forall2_nil]); (split; [exact Hc|]); (split; [reflexivity|]); (split; [reflexivity|exact Nr]). }
      destruct B as (z1 & mk & E1 & (ev1 & (R1 & M1 & M2 & M3 & M4) & Nev) & Nm).
      destruct (V z1 (c ++ [mask_of (v_ctm z) s]) R1) as (ev & (z2 & E2 & R2 & C1 & C2 & C3 & C4) & N & Nj).
      { rewrite M3. apply Forall2_app; [exact Hc|]. apply Forall2_cons; [exact Nm|apply Forall2_nil]. }
      rewrite M1 in *. change (next s1) with (next st) in *.
      change (sees c (v_ctm z) (next st) (FClip s o body)) with (let '(ev', j1) := sees_all (c ++ [mask_of (v_ctm z) s]) (v_ctm z) (next st) body in ((if o then [border c (v_ctm z) s] else []) ++ ev', j1)).
      destruct (sees_all (c ++ [mask_of (v_ctm z) s]) (v_ctm z) (next st) body) as [ev' j1]. cbn [fst snd] in *.
      exists (ev1 ++ ev). split; [|split; [now apply Forall2_app|exact Nj]].
      eexists. split.
      + intros rest. rewrite <- !app_assoc. rewrite E1, E2. cbn [app vrun vstep]. destruct R2 as (Q1 & Q2 & Q3). rewrite Q1, C3, M2. reflexivity.
      + unfold at_rest. cbn. destruct R2 as (Q1 & Q2 & Q3). rewrite C4, M4, <- app_assoc. now repeat split.
  Qed.

  Lemma cm_run : forall ms z rest, at_rest z ->
    exists z', vrun two (map (fun m : matrix => let '(a, b, c, d, u, v) := shown m in G (Ocm a b c d u v)) ms ++ rest) z = vrun two rest z' /\ at_rest z' /\
      v_ctm z' = fold_left (fun m t => mat_then (shown t) m) ms (v_ctm z) /\ v_clips z' = v_clips z /\ v_stack z' = v_stack z /\ v_done z' = v_done z /\ v_start z' = v_start z.
  Proof.
    induction ms as [|m ms IH]; intros z rest R; [exists z; split; [reflexivity|split; [exact R|now repeat split]]|]. destruct m as [[[[[a b] c] d] u] v]. cbn [map app fold_left].
    set (z1 := {| v_ctm := mat_then (rd5 a, rd5 b, rd5 c, rd5 d, rd5 u, rd5 v) (v_ctm z); v_clips := v_clips z; v_stack := v_stack z; v_cur := None; v_start := v_start z; v_path := v_path z; v_W := v_W z; v_done := v_done z |}).
    destruct R as (R1 & R2 & R3). destruct (IH z1 rest) as (z' & E & R & F); [now repeat split|]. exists z'. split; [|split; [exact R|exact F]].
    cbn [shown vrun vstep]. rewrite R1. exact E.
  Qed.
  Lemma transforms_did : forall ms s n, p_trans s = S n ->
    did s (kcalls (map KTransform ms) s) (map (fun m : matrix => let '(a, b, c, d, u, v) := shown m in G (Ocm a b c d u v)) ms) [].
  Proof.
    induction ms as [|m ms IH]; intros s n Hn; [unfold did; cbn; rewrite !app_nil_r; now destruct s|]. destruct m as [[[[[a b] c] d] u] v].
    change (kcalls (map KTransform ((a, b, c, d, u, v) :: ms)) s) with (kcalls (map KTransform ms) (kexec rd2 rd5 rd3 k h upper isz (KTransform (a, b, c, d, u, v)) s)).
    cbn [kexec]. rewrite Hn. unfold did in *. erewrite IH by exact Hn. cbn [put p_clip p_trans p_err p_grads p_ops map shown]. now rewrite <- app_assoc.
  Qed.
  Lemma trans_ok ms body : fig_ok (flat_map (calls_of str) body) (flat_map gradients body) (fun c m j => sees_all c m j body) ->
    fig_ok (calls_of str (FTrans ms body)) (gradients (FTrans ms body)) (fun c m j => sees c m j (FTrans ms body)).
  Proof.
    intros IH st Hs. cbn [calls_of gradients].
    set (s1 := kexec rd2 rd5 rd3 k h upper isz KBegin st). pose proof (transforms_did ms s1 _ eq_refl) as D1. set (s2 := kcalls (map KTransform ms) s1) in D1.
    destruct (IH s2) as (ops & D & V); [rewrite D1; exact Hs|].
    exists ([G Oq] ++ map (fun m : matrix => let '(a, b, c, d, u, v) := shown m in G (Ocm a b c d u v)) ms ++ ops ++ [G OQ]). split.
    - unfold did in *. change (KBegin :: map KTransform ms ++ flat_map (calls_of str) body ++ [KEnd]) with ([KBegin] ++ map KTransform ms ++ flat_map (calls_of str) body ++ [KEnd]).
      rewrite !kcalls_app. change (kcalls [KBegin] st) with s1. fold s2. rewrite D, D1. unfold s1. cbn. unfold put. cbn. rewrite app_nil_r, <- !app_assoc. reflexivity.
    - intros z c R Hc. pose proof R as (R1 & R2 & R3).
      set (z1 := {| v_ctm := v_ctm z; v_clips := v_clips z; v_stack := (v_ctm z, v_clips z) :: v_stack z; v_cur := None; v_start := v_start z; v_path := v_path z; v_W := v_W z; v_done := v_done z |}).
      assert (A1 : at_rest z1) by (now repeat split).
      assert (E1 : exists z2, (forall rest, vrun two (map (fun m : matrix => let '(a, b, c, d, u, v) := shown m in G (Ocm a b c d u v)) ms ++ rest) z1 = vrun two rest z2) /\ at_rest z2 /\
         v_ctm z2 = fold_left (fun m t => mat_then (shown t) m) ms (v_ctm z1) /\ v_clips z2 = v_clips z1 /\ v_stack z2 = v_stack z1 /\ v_done z2 = v_done z1).
      { set (z2 := {| v_ctm := fold_left (fun m t => mat_then (shown t) m) ms (v_ctm z1); v_clips := v_clips z1; v_stack := v_stack z1; v_cur := None; v_start := v_start z1; v_path := []; v_W := false; v_done := v_done z1 |}).
        exists z2. split; [|now repeat split]. intros rest. destruct (cm_run ms z1 rest A1) as (z' & -> & (Q1 & Q2 & Q3) & T1 & T2 & T3 & T4 & T5). f_equal. destruct z'. unfold z2. cbn in *. now subst. }
      destruct E1 as (z2 & E1 & Q & T1 & T2 & T3 & T4).
      destruct (V z2 c Q) as (ev & (z3 & E2 & Q2 & C1 & C2 & C3 & C4) & N & Nj); [now rewrite T2|].
      assert (Hn : next s2 = next st) by (unfold next; rewrite D1; cbn; now rewrite app_nil_r). rewrite Hn, T1 in *.
      exists ev. split; [|split; [exact N|exact Nj]]. eexists. split.
      + intros rest. rewrite <- !app_assoc. cbn [app vrun vstep]. rewrite R1. fold z1. rewrite E1, E2. destruct Q2 as (U1 & U2 & U3). cbn [vrun vstep]. rewrite U1, C3, T3. reflexivity.
      + unfold at_rest. cbn. destruct Q2 as (U1 & U2 & U3). rewrite C4, T4. now repeat split.
  Qed.
  Lemma nil_ok : fig_ok [] [] (fun c m j => sees_all c m j []).
  Proof.
    intros s Hs. exists []. split; [unfold did; cbn; rewrite !app_nil_r; now destruct s|]. intros z c R Hc. exists []. split; [|split; [apply Forall2_nil|cbn; lia]].
    exists z. rewrite app_nil_r. now repeat split; try apply R.
  Qed.
  Lemma cons_ok f l : fig_ok (calls_of str f) (gradients f) (fun c m j => sees c m j f) -> fig_ok (flat_map (calls_of str) l) (flat_map gradients l) (fun c m j => sees_all c m j l) ->
    fig_ok (flat_map (calls_of str) (f :: l)) (flat_map gradients (f :: l)) (fun c m j => sees_all c m j (f :: l)).
  Proof.
    intros IHf IHl s Hs.
    destruct (IHf s Hs) as (o1 & D1 & V1). destruct (IHl (kcalls (calls_of str f) s)) as (o2 & D2 & V2); [rewrite D1; exact Hs|].
    exists (o1 ++ o2). cbn [flat_map]. split.
    + unfold did in *. rewrite kcalls_app, D2. rewrite D1. cbn. now rewrite map_app, <- !app_assoc.
    + intros z c R Hc. destruct (V1 z c R Hc) as (e1 & (z1 & E1 & R1 & A1 & A2 & A3 & A4) & N1 & J1).
      destruct (V2 z1 c R1) as (e2 & (z2 & E2 & R2 & B1 & B2 & B3 & B4) & N3 & J2); [now rewrite A2|].
      assert (Hn : next (kcalls (calls_of str f) s) = (next s + Z.of_nat (length (gradients f)))%Z) by (unfold next; rewrite D1; cbn [p_grads]; rewrite app_length, map_length; lia).
      rewrite Hn, A1 in *. rewrite <- J1 in N3, J2.
      change (sees_all c (v_ctm z) (next s) (f :: l)) with (let '(ev, j1) := sees c (v_ctm z) (next s) f in let '(ev', j2) := sees_all c (v_ctm z) j1 l in (ev ++ ev', j2)).
      destruct (sees c (v_ctm z) (next s) f) as [ev j1]. cbn [fst snd] in *. destruct (sees_all c (v_ctm z) j1 l) as [ev' j2]. cbn [fst snd] in *.
      exists (e1 ++ e2). split; [|split; [now apply Forall2_app|rewrite app_length; lia]].
      exists z2. split; [intros rest; rewrite <- app_assoc; now rewrite E1, E2|]. split; [exact R2|]. rewrite B1, B2, B3, B4, A2, A3, A4. now rewrite <- app_assoc.
  Qed.
  Lemma fig_main : forall f, proper f = true -> fig_ok (calls_of str f) (gradients f) (fun c m j => sees c m j f).
  Proof.
    apply (fig_rect (fun f => proper f = true -> fig_ok (calls_of str f) (gradients f) (fun c m j => sees c m j f))
      (fun l => forallb proper l = true -> fig_ok (flat_map (calls_of str) l) (flat_map gradients l) (fun c m j => sees_all c m j l))).
    - intros a b _. apply line_ok.
    - intros x y w ht s _. apply rect_ok.
    - intros l s _. apply poly_ok.
    - intros. apply grad_ok.
    - intros. apply grad_ok.
    - intros s o b IH Hp. cbn [proper] in Hp. apply andb_prop in Hp as [H1 H2]. apply clip_ok; [exact H1|exact (IH H2)].
    - intros ms b IH Hp. apply trans_ok. exact (IH Hp).
    - intros _. exact nil_ok.
    - intros f l IHf IHl Hp. cbn [forallb] in Hp. apply andb_prop in Hp as [H1 H2]. apply cons_ok; auto.
  Qed.
  Lemma figs_main l : forallb proper l = true -> fig_ok (flat_map (calls_of str) l) (flat_map gradients l) (fun c m j => sees_all c m j l).
  Proof.
    induction l as [|f l IH]; intros Hp; [exact nil_ok|]. cbn [forallb] in Hp. apply andb_prop in Hp as [H1 H2]. apply cons_ok; [now apply fig_main|auto].
  Qed.
End Main.

(** ** C73 *)
(** Every drawing made of lines, rectangles, polygons, gradients, clipped parts and
    transformed parts, nested in any way: no error is reported, the contexts are
    closed, and a viewer sees exactly what the drawing says - each part within the
    clips around it and no others, gradients stretched over their rectangle and
    confined to it - with no coordinate off by more than a hundredth of a point.  The
    gradients are recorded in the order drawn, with clamped colors, under the numbers
    the viewer sees.  (Text clips with a single-byte font; the missing parts are below.) *)
Theorem C73_clips_partial : forall (rd2 rd5 rd3 : R -> R) (k h : R) (upper : bytes -> bytes) (isz : R -> bool) (drawing : list fig),
  (forall r, Rabs (rd2 r - r) <= 1 / 200) -> (forall r, Rabs (rd5 r - r) <= 1 / 200000) -> (forall r, isz r = true <-> r = 0) ->
  forallb proper drawing = true ->
  let s := kcalls rd2 rd5 rd3 k h upper isz (flat_map (calls_of (fun codes => codes)) drawing) pst0 in
  let printed m := let '(a, b, c, d, u, v) := m in (rd5 a, rd5 b, rd5 c, rd5 d, rd5 u, rd5 v) in
  let color c := let '(r, g, b) := c in let one v := rd3 (IZR (Z.max 0 (Z.min 255 v)) / 255) in (one r, one g, one b) in
  p_err s = false /\ p_clip s = 0%nat /\ p_trans s = 0%nat /\
  map (fun g => (q_tp g, q_c1 g, q_c2 g, q_xy g)) (p_grads s) = map (fun g : grad_spec => let '(tp, c1, c2, xy) := g in (tp, color c1, color c2, xy)) (flat_map gradients drawing) /\
  exists z, vrun false (p_ops s) page0 = Some z /\ v_stack z = [] /\ v_clips z = [] /\ v_ctm z = id_mat /\
    Forall2 (event_near (1 / 100)) (v_done z) (fst (sees_all k h (fill_draw_op upper) printed [] id_mat 1 drawing)).
Proof.
  intros rd2 rd5 rd3 k h upper isz drawing N2 N5 Hz Hp s printed color.
  assert (Hc : forall g : grad_spec, (fun g => (q_tp g, q_c1 g, q_c2 g, q_xy g)) (grad_of rd3 g) = (let '(tp, c1, c2, xy) := g in (tp, color c1, color c2, xy))).
  { intros [[[tp [[r1 g1] b1]] [[r2 g2] b2]] xy]. unfold grad_of, rgb3, color. cbn [q_tp q_c1 q_c2 q_xy].
    assert (C : forall v, comp255 rd3 v = rd3 (IZR (Z.max 0 (Z.min 255 v)) / 255)) by (intros v; unfold comp255; do 3 f_equal; destruct (Z.ltb_spec v 0), (Z.gtb_spec v 255); lia).
    now rewrite !C. }
  destruct (figs_main rd2 rd5 rd3 N2 N5 k h upper isz Hz false (fun c => c) text_bytes drawing Hp pst0 eq_refl) as (ops & D & V).
  fold s in D. clearbody s. unfold did in D. subst s. cbn [p_err p_clip p_trans p_grads p_ops pst0 app]. split; [reflexivity|]. split; [reflexivity|]. split; [reflexivity|].
  split. { rewrite map_map. apply map_ext. exact Hc. }
  destruct (V page0 []) as (ev & (z & E & _ & A1 & A2 & A3 & A4) & N & _); [now repeat split|apply Forall2_nil|].
  exists z. specialize (E []). rewrite app_nil_r in E. split; [exact E|]. split; [exact A3|]. split; [exact A2|]. split; [exact A1|]. rewrite A4. exact N.
Qed.
Print Assumptions C73_clips_partial.

(** Near control points make near curves: every point drawn is within a hundredth of
    a point of the one meant. *)
Definition point_at (s : seg) (t : R) : point :=
  match s with Straight a b => ((1 - t) * fst a + t * fst b, (1 - t) * snd a + t * snd b) | Bez a c d b => bez a c d b t end.
Theorem C73_near_partial : forall e s s', seg_near e s s' -> forall t, 0 <= t <= 1 -> near e (point_at s t) (point_at s' t).
Proof.
  assert (A : forall a x, Rabs a <= x -> - x <= a <= x) by (intros a x; unfold Rabs; destruct (Rcase_abs a); lra).
  assert (L1 : forall e a a' b b' t, Rabs (a - a') <= e -> Rabs (b - b') <= e -> 0 <= t <= 1 -> Rabs (((1 - t) * a + t * b) - ((1 - t) * a' + t * b')) <= e).
  { intros e a a' b b' t H1 H2 Ht. apply A in H1, H2. apply Rabs_le. nra. }
  assert (L3 : forall e a a' c c' d d' b b' t, Rabs (a - a') <= e -> Rabs (c - c') <= e -> Rabs (d - d') <= e -> Rabs (b - b') <= e -> 0 <= t <= 1 ->
    Rabs (bez1 a c d b t - bez1 a' c' d' b' t) <= e).
  { intros e a a' c c' d d' b b' t H1 H2 H3 H4 Ht. apply A in H1, H2, H3, H4. apply Rabs_le. unfold bez1.
    set (w0 := (1 - t) * (1 - t) * (1 - t)). set (w1 := 3 * t * (1 - t) * (1 - t)). set (w2 := 3 * t * t * (1 - t)). set (w3 := t * t * t).
    assert (W0 : 0 <= w0) by (unfold w0; apply Rmult_le_pos; [apply Rmult_le_pos|]; lra). assert (W1 : 0 <= w1) by (unfold w1; apply Rmult_le_pos; [apply Rmult_le_pos|]; lra).
    assert (W2 : 0 <= w2) by (unfold w2; apply Rmult_le_pos; [apply Rmult_le_pos|]; lra). assert (W3 : 0 <= w3) by (unfold w3; apply Rmult_le_pos; [apply Rmult_le_pos|]; lra).
    assert (W : w0 + w1 + w2 + w3 = 1) by (unfold w0, w1, w2, w3; ring).
    clearbody w0 w1 w2 w3. assert (w0 = 1 - w1 - w2 - w3) by lra.
    assert (M : forall w u, 0 <= w -> - e <= u <= e -> - (w * e) <= w * u <= w * e) by (intros w u Hw Hu; split; nra).
    pose proof (M w0 (a - a') W0 H1). pose proof (M w1 (c - c') W1 H2). pose proof (M w2 (d - d') W2 H3). pose proof (M w3 (b - b') W3 H4).
    assert (E : w0 * e + w1 * e + w2 * e + w3 * e = e) by (rewrite <- !Rmult_plus_distr_r, W; ring). lra. }
  intros e s s' H t Ht. destruct s as [a b|a c d b], s' as [a' b'|a' c' d' b']; cbn in H; try tauto; unfold near in *; cbn [point_at fst snd bez].
  - destruct H as [[? ?] [? ?]]. split; now apply L1.
  - destruct H as [[? ?] [[? ?] [[? ?] [? ?]]]]. split; now apply L3.
Qed.
Print Assumptions C73_near_partial.

(** A quarter of the unit circle by one curve *)
Lemma quarter t : 0 <= t <= 1 -> let u := bez1 1 1 kappa 0 t in let v := bez1 0 kappa 1 1 t in 1 <= u * u + v * v <= 1 + 6 / 10000.
Proof.
  intros Ht u v. set (s := sqrt 2). assert (S2 : s * s = 2) by (apply sqrt_sqrt; lra). assert (S0 : 0 <= s) by apply sqrt_pos.
  set (p := t * (1 - t)). assert (Hp : 0 <= p <= 1 / 4) by (pose proof (Rle_0_sqr (t - 1 / 2)) as Q; unfold Rsqr in Q; unfold p; split; [apply Rmult_le_pos|]; lra).
  assert (E : u * u + v * v = 1 + (34 - 24 * s) * (p * p * (1 - 4 * p))).
  { assert (K2 : kappa * kappa = 16 / 9 * (3 - 2 * s)). { unfold kappa. fold s. replace (4 / 3 * (s - 1) * (4 / 3 * (s - 1))) with (16 / 9 * (s * s - 2 * s + 1)) by field. rewrite S2. field. }
    set (a := (1 - t) * (1 - t) * (1 - t) + 3 * t * (1 - t) * (1 - t)). set (b := 3 * t * t * (1 - t)). set (c := 3 * t * t * (1 - t) + t * t * t). set (d := 3 * t * (1 - t) * (1 - t)).
    replace (u * u + v * v) with (a * a + c * c + 2 * kappa * (a * b + c * d) + kappa * kappa * (b * b + d * d)) by (unfold u, v, bez1, a, b, c, d; ring).
    rewrite K2. unfold kappa, a, b, c, d, p. fold s. field. }
  rewrite E. assert (C0 : 0 <= 34 - 24 * s <= 6 / 100) by (split; nra).
  assert (P0 : 0 <= p * p * (1 - 4 * p) <= 1 / 108).
  { split; [nra|]. assert (0 <= 4 * ((p - 1 / 6) * (p - 1 / 6)) * (p + 1 / 12)) by (apply Rmult_le_pos; [|lra]; pose proof (Rle_0_sqr (p - 1 / 6)) as Q; unfold Rsqr in Q; lra).
    replace (4 * ((p - 1 / 6) * (p - 1 / 6)) * (p + 1 / 12)) with (1 / 108 - p * p * (1 - 4 * p)) in * by field. lra. }
  split; nra.
Qed.
(** The outline meant for ClipEllipse and ClipCircle lies between the ellipse and the
    same ellipse stretched by 0.03 percent around its centre, and so do the rounded corners
    of ClipRoundedRect between circles around their centres. *)
Theorem C73_ellipse_partial : forall k h x y rx ry sg, In sg (outline k h (AEllipse x y rx ry)) ->
  exists a c d b, sg = Bez a c d b /\ forall t, 0 <= t <= 1 -> exists u v, 1 <= u * u + v * v <= 1 + 6 / 10000 /\ bez a c d b t = pt k h (x + rx * u) (y + ry * v).
Proof.
  intros k h x y rx ry sg Hin. cbn [outline In] in Hin.
  destruct Hin as [<-|[<-|[<-|[<-|[]]]]]; do 4 eexists; (split; [reflexivity|]); intros t Ht; pose proof (quarter t Ht) as Q; cbv zeta in Q;
    set (u := bez1 1 1 kappa 0 t) in Q; set (v := bez1 0 kappa 1 1 t) in Q;
    [exists u, (- v)|exists (- v), (- u)|exists (- u), v|exists v, u]; (split; [lra|]); unfold u, v, bez, bez1, pt; cbn [fst snd]; f_equal; ring.
Qed.
Print Assumptions C73_ellipse_partial.
Theorem C73_corners_partial : forall k h x y w ht tl tr br bl sg, In sg (outline k h (ARound x y w ht tl tr br bl)) ->
  (exists a b, sg = Straight a b) \/
  exists a c d b cx cy r, sg = Bez a c d b /\ In (cx, cy, r) [(x + tl, y + tl, tl); (x + w - tr, y + tr, tr); (x + w - br, y + ht - br, br); (x + bl, y + ht - bl, bl)] /\
    forall t, 0 <= t <= 1 -> exists u v, 1 <= u * u + v * v <= 1 + 6 / 10000 /\ bez a c d b t = pt k h (cx + r * u) (cy + r * v).
Proof.
  intros k h x y w ht tl tr br bl sg Hin. cbn [outline] in Hin. unfold corner in Hin. rewrite !in_app_iff in Hin. cbn [In] in Hin.
  destruct Hin as [[<-|[]]|[H|[[<-|[]]|[H|[[<-|[]]|[H|[[<-|[]]|H]]]]]]]; try (left; now do 2 eexists); right;
    match type of H with In _ (if Req_EM_T ?r 0 then _ else _) => destruct (Req_EM_T r 0) as [E|E]; [destruct H|]; destruct H as [<-|[]] end;
    [exists (pt k h (x + w - tr) y)|exists (pt k h (x + w) (y + ht - br))|exists (pt k h (x + bl) (y + ht))|exists (pt k h x (y + tl))]; do 3 eexists;
    [exists (x + w - tr), (y + tr), tr|exists (x + w - br), (y + ht - br), br|exists (x + bl), (y + ht - bl), bl|exists (x + tl), (y + tl), tl]; (split; [reflexivity|]); (split; [cbn; tauto|]);
    intros t Ht; pose proof (quarter t Ht) as Q; cbv zeta in Q; set (u := bez1 1 1 kappa 0 t) in Q; set (v := bez1 0 kappa 1 1 t) in Q;
    [exists v, (- u)|exists u, v|exists (- v), u|exists (- u), (- v)]; (split; [lra|]); unfold u, v, bez, bez1, pt; cbn [fst snd]; f_equal; ring.
Qed.
Print Assumptions C73_corners_partial.

(** ** What is missing *)
(** With a UTF-8 font ClipText clips to other characters: the string is written as it
    is, not two bytes for a character.  Here é gives the character 50089. *)
Theorem C73_utf8_text_refuted : forall rd2 rd5 rd3 k h upper isz x y, exists z,
  vrun true (p_ops (kcalls rd2 rd5 rd3 k h upper isz (calls_of utf8 (FClip (AText x y [233%Z]) true [])) pst0)) page0 = Some z /\
  v_done z = [Stroked [] id_mat (rd5 (x * k), rd5 ((h - y) * k)) [50089%Z]].
Proof. intros. eexists. split; reflexivity. Qed.
Print Assumptions C73_utf8_text_refuted.
(** ClipPolygon without points writes operators a viewer cannot follow. *)
Theorem C73_empty_polygon_refuted : forall rd2 rd5 rd3 k h upper isz o,
  let s := kcalls rd2 rd5 rd3 k h upper isz (calls_of (fun c => c) (FClip (APoly []) o [])) pst0 in p_err s = false /\ vrun false (p_ops s) page0 = None.
Proof. intros. split; [destruct o|]; reflexivity. Qed.
Print Assumptions C73_empty_polygon_refuted.
(** ClipEnd between TransformBegin and TransformEnd ends the transformation instead: what
    is drawn after ClipEnd is still clipped, although no clip is open and no error is
    reported. *)
Theorem C73_interleaved_refuted : forall rd2 rd5 rd3 k h upper isz x y w ht a b, exists m z,
  let s := kcalls rd2 rd5 rd3 k h upper isz [KClip (CRect x y w ht) false; KBegin; KClipEnd; KLine a b] pst0 in
  p_err s = false /\ p_clip s = 0%nat /\ vrun false (p_ops s) page0 = Some z /\
  v_done z = [Painted [m] id_mat (bs "S") [Straight (rd2 (fst a * k), rd2 ((h - snd a) * k)) (rd2 (fst b * k), rd2 ((h - snd b) * k))]].
Proof. intros. do 2 eexists. split; [reflexivity|]. split; [reflexivity|]. split; reflexivity. Qed.
Print Assumptions C73_interleaved_refuted.

(** ** Cases that meet the hypotheses *)
Definition round_to (n r : R) : R := IZR (Int_part (n * r + 1 / 2)) / n.
Lemma round_to_near n r : 0 < n -> Rabs (round_to n r - r) <= 1 / (2 * n).
Proof.
  intros Hn. unfold round_to. destruct (base_Int_part (n * r + 1 / 2)) as [A B]. set (i := IZR (Int_part (n * r + 1 / 2))) in *.
  replace (i / n - r) with ((i - n * r) * / n) by (field; lra). rewrite Rabs_mult, (Rabs_pos_eq (/ n)) by (left; now apply Rinv_0_lt_compat).
  replace (1 / (2 * n)) with (1 / 2 * / n) by (field; lra). apply Rmult_le_compat_r; [left; now apply Rinv_0_lt_compat|]. apply Rabs_le. lra.
Qed.
Definition sample : list fig :=
  [FClip (AEllipse 50 50 30 20) true [FTrans [(1, 0, 0, 1, 5, 5)] [FClip (AText 20 50 (bs "Clip")) false [FLinear 10 10 80 60 (255, 0, 0)%Z (0, 0, 300)%Z 0 0 1 1]]];
   FLine (0, 0) (100, 100); FRadial 0 0 10 10 (1, 2, 3)%Z (4, 5, 6)%Z (1 / 2) (1 / 2) (1 / 2) (1 / 2) 1].
Example C73_example : forallb proper sample = true /\ (forall r, Rabs (round_to 100 r - r) <= 1 / 200) /\ (forall r, Rabs (round_to 100000 r - r) <= 1 / 200000) /\
  length (flat_map gradients sample) = 2%nat /\
  (forall k h how shown, exists e1 e2 e3 e4, fst (sees_all k h how shown [] id_mat 1 sample) = [e1; e2; e3; e4] /\
    e1 = border k h [] id_mat (AEllipse 50 50 30 20) /\
    e2 = (let m := mat_then (shown (1, 0, 0, 1, 5, 5)) id_mat in
          Shaded [Inside id_mat (outline k h (AEllipse 50 50 30 20)); Glyphs m (pt k h 20 50) (bs "Clip"); Inside m (box k h 10 10 80 60)] (mat_then (unit_to k h 10 10 80 60) m) 1) /\
    match e3, e4 with Painted [] _ _ _, Shaded [Inside _ _] _ 2 => True | _, _ => False end).
Proof.
  split; [reflexivity|]. split; [intros r; pose proof (round_to_near 100 r ltac:(lra)); lra|]. split; [intros r; pose proof (round_to_near 100000 r ltac:(lra)); lra|]. split; [reflexivity|].
  intros. do 4 eexists. split; [reflexivity|]. split; [reflexivity|]. split; [reflexivity|]. exact I.
Qed.
