(** C70: margins and line style are what the calls made so far set them to. *)
From Verif Require Import Base TextModel ApiModel ApiProofs ApiErr ApiQuiet ApiTurn ApiLife ApiKeep ApiInst ApiBreak ApiColor ApiNestProps.
From Coq Require Import String.
Local Open Scope string_scope.
Local Open Scope list_scope.
Local Open Scope Z_scope.

(** ** Specification *)
Section Spec.
  Context {A : arith}.
  (** what GetMargins, GetCellMargin and GetAutoPageBreak return, the line cap and join styles, and
      the dash pattern, in points *)
  Record settings := mk_set { v_left : num A; v_top : num A; v_right : num A; v_bottom : num A; v_cell : num A; v_auto : bool;
                              v_cap : Z; v_join : Z; v_dash : list (num A); v_phase : num A }.
  Definition settings_of (s : st A) : settings :=
    let g := t_geo s in let x := t_gfx s in
    mk_set (x_lm g) (x_tm g) (x_rm g) (x_bm g) (x_cm g) (x_auto g) (g_cap x) (g_join x) (g_dash x) (g_phase x).

  (** what one call does to them, in a document with k points to the unit *)
  Definition apply_call (k : num A) (c : call A) (v : settings) : settings :=
    let '(mk_set l t r b m a cap join dash ph) := v in
    match c with
    | SetMargins l' t' r' => mk_set l' t' (if nlt A r' (ofZ A 0) then l' else r') b m a cap join dash ph
    | SetLeftMargin l' => mk_set l' t r b m a cap join dash ph
    | SetTopMargin t' => mk_set l t' r b m a cap join dash ph
    | SetRightMargin r' => mk_set l t r' b m a cap join dash ph
    | SetCellMargin m' => mk_set l t r b m' a cap join dash ph
    | SetAutoPageBreak a' b' => mk_set l t r b' m a' cap join dash ph
    | SetLineCapStyle w => mk_set l t r b m a (if beqb w (bs "round") then 1 else if beqb w (bs "square") then 2 else 0) join dash ph
    | SetLineJoinStyle w => mk_set l t r b m a cap (if beqb w (bs "round") then 1 else if beqb w (bs "bevel") then 2 else 0) dash ph
    | SetDashPattern d ph' => mk_set l t r b m a cap join (map (fun x => nmul A x k) d) (nmul A ph' k)
    | _ => v
    end.

  (** a call that is none of these *)
  Definition other (c : call A) : Prop :=
    match c with
    | SetMargins _ _ _ | SetLeftMargin _ | SetTopMargin _ | SetRightMargin _ | SetCellMargin _ | SetAutoPageBreak _ _
    | SetLineCapStyle _ | SetLineJoinStyle _ | SetDashPattern _ _ => False
    | _ => True
    end.
  (** the functions a call registers, and the functions they register, make no such call; the call itself may be one *)
  Definition modest (c : call A) : Prop := other c -> okc other c.

  (** the calls a program makes itself, run from a state *)
  Fixpoint made (ex : call A -> st A -> option (st A)) (p : prog A) (s : st A) : list (call A) :=
    match p with
    | Done _ => []
    | Step c k => c :: match ex c s with Some s' => made ex (k (observe s')) s' | None => [] end
    end.
End Spec.
Arguments settings : clear implicits.

Section Props.
  Context {A : arith} (core_font : bytes -> bytes -> fontdef + bytes)
    (asm : st A -> option (bytes * option error)).
  Implicit Types s : st A.

  Definition kept s s' : Prop := settings_of s' = settings_of s /\ x_k (t_geo s') = x_k (t_geo s).

  Lemma kept_same s s' : t_geo s' = t_geo s -> t_gfx s' = t_gfx s -> kept s s'.
  Proof. unfold kept, settings_of. now intros -> ->. Qed.

  Lemma simple_kept c s s' : simple c = true -> other c -> step core_font asm no_runner c s = Some s' -> kept s s'.
  Proof.
    intros H1 Ho H. destruct c; try discriminate H1; try contradiction; clear H1 Ho; cbn [step] in H; try (injection H as <-);
      try (split; reflexivity);
      try (revert H; unfold set_link; cbv zeta; destruct (_ && _); [|discriminate]; intros [= <-]; split; reflexivity);
      try solve [open_simple; split_ifs; unfold kept, settings_of; cbn; rewrite ?eop_geo, ?emit_geo, ?eop_gfx, ?emit_gfx; cbn; rewrite ?emit_geo, ?emit_gfx; split; reflexivity].
    - unfold kept, settings_of. rewrite set_font_geo, set_font_gfx. split; reflexivity.
    - unfold kept, settings_of. rewrite set_font_geo, set_font_gfx. split; reflexivity.
  Qed.

  Lemma put_back_style v s : let g := t_gfx (put_back core_font v s) in
    (g_cap g, g_join g, g_dash g, g_phase g) = (g_cap (t_gfx s), g_join (t_gfx s), g_dash (t_gfx s), g_phase (t_gfx s)).
  Proof.
    cbv zeta. unfold put_back. cbv zeta.
    assert (E : let g := t_gfx (put_font core_font v (back_width v s)) in
      (g_cap g, g_join g, g_dash g, g_phase g) = (g_cap (t_gfx s), g_join (t_gfx s), g_dash (t_gfx s), g_phase (t_gfx s))).
    { cbv zeta. rewrite put_font_gfx. unfold back_width. destruct (neq _ _ _); rewrite ?emit_gfx; reflexivity. }
    destruct (stops _ _); [exact E|]. unfold put_text, back_fill, back_draw.
    repeat match goal with |- context [if ?b then _ else _] => destruct b end; cbn; rewrite ?emit_gfx; cbn; rewrite ?emit_gfx; exact E.
  Qed.

  Lemma prim_kept V s s' : prim core_font asm other V s s' -> kept s s'.
  Proof.
    intros H. destruct H; try (split; reflexivity); try solve [apply kept_same; rewrite ?emit_geo, ?emit_gfx; reflexivity].
    - eapply simple_kept; eauto. eapply okc_self; eauto.
    - apply kept_same; [apply end_page_geo|apply end_page_gfx].
    - apply kept_same; [apply start_page_geo|apply start_page_gfx].
    - assert (G : let g := t_geo (fst (open_page core_font v (begin_page o w h s))) in
        x_k g = x_k (t_geo s) /\ x_lm g = x_lm (t_geo s) /\ x_tm g = x_tm (t_geo s) /\ x_rm g = x_rm (t_geo s) /\ x_bm g = x_bm (t_geo s) /\ x_cm g = x_cm (t_geo s) /\ x_auto g = x_auto (t_geo s)).
      { cbv zeta. rewrite open_page_geo. destruct (failed s) eqn:Ef.
        - unfold begin_page. rewrite Ef. repeat split.
        - rewrite begin_page_geo by exact Ef. unfold resize. destruct (_ || _); [|repeat split]. destruct (beqb _ _); repeat split. }
      assert (X : let g := t_gfx (fst (open_page core_font v (begin_page o w h s))) in
        (g_cap g, g_join g, g_dash g, g_phase g) = (g_cap (t_gfx s), g_join (t_gfx s), g_dash (t_gfx s), g_phase (t_gfx s))).
      { cbv zeta. rewrite open_page_gfx. cbv zeta. destruct (snd _); cbn; rewrite begin_page_gfx; reflexivity. }
      cbv zeta in G, X. destruct G as (G0 & G1 & G2 & G3 & G4 & G5 & G6). injection X as X1 X2 X3 X4.
      unfold kept, settings_of. cbv zeta. rewrite G1, G2, G3, G4, G5, G6, X1, X2, X3, X4. split; [reflexivity|exact G0].
    - pose proof (put_back_style v s) as X. cbv zeta in X. injection X as X1 X2 X3 X4.
      unfold kept, settings_of. cbv zeta. rewrite put_back_geo, X1, X2, X3, X4. split; reflexivity.
    - unfold end_doc in H0. destruct (failed s); [injection H0 as <-; split; reflexivity|].
      destruct (asm s) as [[b [e|]]|]; [| |discriminate]; injection H0 as <-; split; reflexivity.
    - destruct w; split; reflexivity.
    - unfold kept, settings_of. rewrite emit_geo, emit_gfx. split; reflexivity.
    - unfold kept, settings_of. rewrite emit_geo, emit_gfx. split; reflexivity.
    - destruct (cell_geo w h txt border ln align fill l u s) as (w' & E & _). unfold kept, settings_of. rewrite E, cell_gfx. cbv zeta.
      destruct (ln >? 0); [destruct (ln =? 1)|]; split; reflexivity.
    - apply kept_same; [apply image_place_geo|apply image_place_gfx].
  Qed.

  Lemma other_kept n c s s' : okc other c -> hooks_ok other s -> exec core_font asm n c s = Some s' -> kept s s' /\ hooks_ok other s'.
  Proof.
    intros Hc Hh H.
    destruct (exec_good core_font asm other (fun _ => True) kept (fun _ => True)) with (n := n) (c := c) (s := s) (s' := s') as (H1 & _ & H3); auto.
    - intros s0 _. split; reflexivity.
    - intros a b d [A1 A2] [B1 B2]. split; congruence.
    - intros s0 s1 Hp _ _. split; [exact I|]. eapply prim_kept; eauto.
  Qed.

  Lemma setter_kept n c s s' : ~ other c -> exec core_font asm n c s = Some s' ->
    settings_of s' = apply_call (x_k (t_geo s)) c (settings_of s) /\ x_k (t_geo s') = x_k (t_geo s) /\ t_hook s' = t_hook s.
  Proof.
    intros Ho. destruct n as [|n]; [discriminate|]. cbn [exec].
    destruct c; cbn [other] in Ho; try (exfalso; apply Ho; exact I); cbn [step]; intros H; clear Ho;
      injection H as <-; unfold settings_of, set_cap, set_join, set_dash; cbv zeta; rewrite ?eop_geo, ?eop_gfx, ?eop_hook;
      try (repeat split; reflexivity).
    cbn. destruct (on_page s && nlt A (x_x (t_geo s)) m); repeat split; reflexivity.
  Qed.

  (** Margins, cell margin, page break setting, line cap, line join and dash pattern are, after any
      program, what the calls the program made set them to, in order.  Whatever
      else it did (pages, page breaks, headers, footers, text, errors) has no part in it. *)
  Theorem C70_settings n p s b s' :
    okp modest p -> hooks_ok other s -> run core_font asm n p s = Some (b, s') ->
    settings_of s' = fold_left (fun v c => apply_call (x_k (t_geo s)) c v) (made (exec core_font asm n) p s) (settings_of s).
  Proof.
    revert s b s'. induction p as [b0|c k IH]; intros s b s' Hp Hh H; cbn in H.
    - injection H as <- <-. reflexivity.
    - destruct Hp as [Hc Hk]. apply okc_self in Hc. destruct (exec core_font asm n c s) as [s1|] eqn:E; [|discriminate].
      cbn [made]. rewrite E. cbn [fold_left].
      assert (K : settings_of s1 = apply_call (x_k (t_geo s)) c (settings_of s) /\ x_k (t_geo s1) = x_k (t_geo s) /\ hooks_ok other s1).
      { assert (D : other c \/ ~ other c) by (destruct c; cbn; tauto). destruct D as [D|D].
        - destruct (other_kept n c s s1 (Hc D) Hh E) as [[K1 K2] K3]. split; [|split; assumption].
          rewrite K1. destruct (settings_of s). destruct c; try contradiction; reflexivity.
        - destruct (setter_kept n c s s1 D E) as (K1 & K2 & K3). repeat split; auto; unfold hooks_ok in *; rewrite K3; apply Hh. }
      destruct K as (K1 & K2 & K3).
      rewrite (IH _ s1 b s' (Hk _) K3 H), K1, K2. reflexivity.
  Qed.

  (** the same from a new document, whose margins are 28.35 points (with k points to the unit), twice that at the bottom *)
  Corollary C70_settings_new n p k o w h m b s' :
    okp modest p -> run core_font asm n p (init k o w h m) = Some (b, s') ->
    settings_of s' = fold_left (fun v c => apply_call k c v) (made (exec core_font asm n) p (init k o w h m))
      (mk_set m m m (nmul A (ofZ A 2) m) (ndiv A m (ofZ A 10)) true 0 0 [] (ofZ A 0)).
  Proof.
    intros Hp H. rewrite (C70_settings _ _ _ _ _ Hp (no_hooks other k o w h m) H).
    unfold init. destruct (beqb o _); reflexivity.
  Qed.
End Props.

(** ** A document with a header, a footer and page breaks *)
Definition set_calls : list (call arithZ) :=
  [SetHeaderFunc (Some (calls [SetFont (A := arithZ) (bs "Times") [] 8; SetXY (A := arithZ) 1 2])); SetMargins (A := arithZ) 20 15 (-1);
   AddPage; SetFont (A := arithZ) (bs "Arial") [] 12; SetLineCapStyle (bs "round"); SetDashPattern (A := arithZ) [2; 1] 3;
   SetAutoPageBreak (A := arithZ) true 40; CellFormat (A := arithZ) 50 200 (bs "a") (bs "1") 1 (bs "L") false 0 [];
   CellFormat (A := arithZ) 50 200 (bs "b") (bs "1") 1 (bs "L") false 0 []; SetRightMargin (A := arithZ) 7; SetError EAlpha; SetCellMargin (A := arithZ) 4; AddPage].
Example C70_case_allowed : okp modest (calls set_calls).
Proof. unfold set_calls, modest. cbn [calls okp okc other]. repeat split; intros; repeat split; try exact I; try contradiction. Qed.
Example C70_case : after set_calls (fun s => (settings_of s, pageno s, failed s)) =
  Some (mk_set (A := arithZ) 20 15 7 40 4 true 1 0 [2; 1] 3, 2%nat, true).
Proof. vm_compute. reflexivity. Qed.

Print Assumptions C70_settings.
Print Assumptions C70_settings_new.
