(** The page break trigger in every reachable state, and what an automatic
    page break does. *)
From Verif Require Import Base TextModel ApiModel ApiProofs ApiErr ApiQuiet ApiTurn ApiLife ApiKeep.
From Coq Require Import String.
Local Open Scope string_scope.
Local Open Scope list_scope.
Local Open Scope Z_scope.

Section Trigger.
  Context {A : arith} (core_font : bytes -> bytes -> fontdef + bytes)
    (asm : st A -> option (bytes * option error)).
  Implicit Types s : st A.

  (** the trigger is the bottom margin's distance from the page height; the
      current page is one of the pages *)
  Definition trig_ok s : Prop :=
    x_trig (t_geo s) = nsub A (x_h (t_geo s)) (x_bm (t_geo s)).

  Lemma set_font_geo fam sty size s : t_geo (set_font core_font fam sty size s) = t_geo s.
  Proof. unfold set_font, select_font, add_font, force_err. split_ifs; cbn; rewrite ?eop_geo; reflexivity. Qed.
  Lemma put_font_geo v s : t_geo (put_font core_font v s) = t_geo s.
  Proof. unfold put_font. destruct (v_fam v); [reflexivity|apply set_font_geo]. Qed.
  Lemma open_lines_geo v s : t_geo (open_lines v s) = t_geo s.
  Proof. unfold open_lines. cbv zeta. destruct (g_dash _); rewrite ?emit_geo; reflexivity. Qed.
  Lemma open_page_geo v s : t_geo (fst (open_page core_font v s)) = t_geo s.
  Proof.
    unfold open_page. cbv zeta. destruct (stops _ _); cbn [fst]; [now rewrite put_font_geo, open_lines_geo|].
    unfold put_text, open_fill, open_draw. cbv zeta.
    repeat match goal with |- context [if ?b then _ else _] => destruct b end; cbn; rewrite ?emit_geo; cbn; rewrite ?emit_geo; cbn; rewrite put_font_geo, open_lines_geo; reflexivity.
  Qed.
  Lemma put_back_geo v s : t_geo (put_back core_font v s) = t_geo s.
  Proof.
    unfold put_back. cbv zeta.
    assert (E : t_geo (put_font core_font v (back_width v s)) = t_geo s).
    { rewrite put_font_geo. unfold back_width. destruct (neq _ _ _); rewrite ?emit_geo; reflexivity. }
    destruct (stops _ _); [exact E|]. unfold put_text, back_fill, back_draw.
    repeat match goal with |- context [if ?b then _ else _] => destruct b end; cbn; rewrite ?emit_geo; cbn; rewrite ?emit_geo; exact E.
  Qed.
  Lemma end_page_geo s : t_geo (end_page s) = t_geo s.
  Proof. unfold end_page, end_layer. destruct (n_layer _); cbn; rewrite ?emit_geo; reflexivity. Qed.
  Lemma transform_geo a b c d e f s : t_geo (transform a b c d e f s) = t_geo s.
  Proof. unfold transform, fail, force_err. destruct (_ >? _); [apply emit_geo|]. destruct (failed s); reflexivity. Qed.
  Lemma image_place_geo id x y w h negx l u s : t_geo (image_place id x y w h negx l u s) = t_geo s.
  Proof. unfold image_place. cbv zeta. destruct (_ || _); rewrite ?nl_geo, ?emit_geo; reflexivity. Qed.
  Lemma begin_page_geo o w h s : failed s = false -> t_geo (begin_page o w h s) =
    resize (match o with [] => x_defo (t_geo s) | c :: _ => [up1 c] end) w h (sx_y (x_tm (t_geo s)) (sx_x (x_lm (t_geo s)) (t_geo s))).
  Proof. intros Hf. unfold begin_page. rewrite Hf. cbv zeta. unfold note_size. cbv zeta. destruct (_ || _); destruct o; reflexivity. Qed.
  Lemma resize_trig o w h g : x_trig g = nsub A (x_h g) (x_bm g) -> let g' := resize o w h g in x_trig g' = nsub A (x_h g') (x_bm g').
  Proof. intros H. unfold resize. destruct (_ || _); [|exact H]. now destruct (beqb o _). Qed.
  Lemma start_page_geo s : t_geo (start_page s) = t_geo s.
  Proof. unfold start_page. cbv zeta. split_ifs; reflexivity. Qed.

  Lemma trig_same s s' : t_geo s' = t_geo s -> trig_ok s -> trig_ok s'.
  Proof. unfold trig_ok. now intros ->. Qed.

  Lemma cell_geo w h txt border ln align fill l u s : exists w',
    t_geo (cell_body w h txt border ln align fill l u s) =
    (let g := sx_lasth h (t_geo s) in
     if ln >? 0 then (let g := sx_y (nadd A (x_y g) h) g in if ln =? 1 then sx_x (x_lm g) g else g)
     else sx_x (nadd A (x_x g) w') g) /\ w' = (if neq A w (ofZ A 0) then nsub A (nsub A (x_w (t_geo s)) (x_rm (t_geo s))) (x_x (t_geo s)) else w).
  Proof.
    eexists. split; [|reflexivity]. unfold cell_body. cbv zeta. set (w' := if neq A w _ then _ else w).
    set (ops := _ ++ _). set (s1 := match txt with [] => s | _ => _ end).
    assert (E : t_geo s1 = t_geo s) by (unfold s1; destruct txt; [reflexivity|]; destruct (_ || _); reflexivity).
    set (s2 := match ops with [] => s1 | _ => _ end).
    assert (E2 : t_geo s2 = t_geo s) by (unfold s2; destruct ops; [exact E|]; rewrite emit_geo; exact E).
    clearbody s1 s2. clear E. destruct (ln >? 0); cbn [on_geo st_geo t_geo]; rewrite E2; reflexivity.
  Qed.

  Lemma simple_trig c s s' : simple c = true -> step core_font asm no_runner c s = Some s' -> trig_ok s -> trig_ok s'.
  Proof.
    intros H1 H Hi. destruct c; try discriminate H1; clear H1; cbn [step] in H; try (injection H as <-); try exact Hi;
      try (revert H; unfold set_link; cbv zeta; destruct (_ && _); [|discriminate]; intros [= <-]; exact Hi);
      try solve [eapply trig_same; [|exact Hi]; open_simple; split_ifs; cbn; rewrite ?eop_geo, ?emit_geo; cbn; rewrite ?emit_geo; reflexivity];
      try (eapply trig_same; [|exact Hi]; apply set_font_geo).
    - unfold trig_ok. cbn. destruct (on_page s); cbn; [|exact Hi]. destruct (nlt A (x_x (t_geo s)) m); exact Hi.
    - reflexivity.
    - unfold trig_ok. rewrite emit_geo. exact Hi.
    - unfold trig_ok, move_to. cbn. rewrite emit_geo. exact Hi.
    - unfold trig_ok, move_to. cbn. rewrite emit_geo. exact Hi.
  Qed.

  Lemma prim_trig P V s s' : prim core_font asm P V s s' -> trig_ok s -> trig_ok s'.
  Proof.
    intros H Hi. destruct H; try exact Hi; try solve [eapply trig_same; [|exact Hi]; rewrite ?emit_geo; reflexivity].
    - eapply simple_trig; eauto.
    - eapply trig_same; [apply end_page_geo|exact Hi].
    - eapply trig_same; [apply start_page_geo|exact Hi].
    - unfold trig_ok. rewrite open_page_geo. destruct (failed s) eqn:Ef.
      + unfold begin_page. rewrite Ef. exact Hi.
      + rewrite begin_page_geo by exact Ef. apply resize_trig. exact Hi.
    - eapply trig_same; [apply put_back_geo|exact Hi].
    - unfold end_doc in H0. destruct (failed s); [injection H0 as <-; exact Hi|].
      destruct (asm s) as [[b [e|]]|]; [| |discriminate]; injection H0 as <-; exact Hi.
    - destruct w; exact Hi.
    - unfold trig_ok. rewrite emit_geo. exact Hi.
    - unfold trig_ok. rewrite emit_geo. exact Hi.
    - destruct (cell_geo w h txt border ln align fill l u s) as (w' & E & _). unfold trig_ok. rewrite E. cbv zeta.
      destruct (ln >? 0); [destruct (ln =? 1)|]; exact Hi.
    - eapply trig_same; [apply image_place_geo|exact Hi].
  Qed.

  (** in every state any program reaches *)
  Lemma run_trig n p s b s' : trig_ok s -> run core_font asm n p s = Some (b, s') -> trig_ok s'.
  Proof.
    intros Hi H.
    destruct (run_good core_font asm (fun _ => True) trig_ok (fun _ _ => True) (fun _ => True)) with (n := n) (p := p) (s := s) (b := b) (s' := s')
      as (_ & Hi' & _); auto.
    - intros s0 s1 Hp _ H0. split; [|exact I]. eapply prim_trig; eauto.
    - now apply any_calls.
    - now apply any_hooks.
  Qed.
  Lemma init_trig k o w h m : trig_ok (init k o w h m).
  Proof. unfold init. destruct (beqb o _); reflexivity. Qed.
End Trigger.
