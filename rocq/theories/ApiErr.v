(** Errors and the life cycle: what happens to the recorded error, to the
    pages and to the output buffer over arbitrary programs. *)
From Verif Require Import Base ApiModel ApiProofs.
From Coq Require Import String.
Local Open Scope string_scope.
Local Open Scope list_scope.
Local Open Scope Z_scope.

Ltac open_simple :=
  unfold fail, set_draw_color, set_fill_color, set_text_color, add_spot, set_draw_spot, set_fill_spot, set_text_spot, get_spot,
    set_line_width, set_cap, set_join, set_dash, set_alpha, add_font, set_font_size, set_font_unit_size, set_xy, set_home, set_x, set_y,
    line_break, text_at, clip_begin, clip_end, transform_begin, transform_end, transform_scale, transform_rotate, transform_skew,
    transform_translate, transform, fail, add_layer, begin_layer, end_layer, add_link, move_to; cbv zeta.
Ltac split_ifs :=
  repeat (match goal with
  | |- context [assoc ?a ?b] => destruct (assoc a b)
  | |- context [if ?b then _ else _] => destruct b eqn:?
  | |- context [match ?b with _ => _ end] => destruct b eqn:?
  end).

Section Err.
  Context {A : arith} (core_font : bytes -> bytes -> fontdef + bytes)
    (asm : st A -> option (bytes * option error)).
  Implicit Types s : st A.

  Lemma set_font_failed fam sty size s : failed s = true -> set_font core_font fam sty size s = s.
  Proof. unfold set_font. now intros ->. Qed.
  Lemma put_font_failed v s : failed s = true -> put_font core_font v s = s.
  Proof. intros H. unfold put_font. destruct (v_fam v); [reflexivity|]. now apply set_font_failed. Qed.

  Lemma image_place_errof id x y w h negx l u s : errof (image_place id x y w h negx l u s) = errof s.
  Proof. unfold image_place. cbv zeta. destruct (_ || _); rewrite ?nl_errof, ?emit_errof; reflexivity. Qed.
  Lemma image_place_log id x y w h negx l u s : t_log (image_place id x y w h negx l u s) = t_log s.
  Proof. unfold image_place. cbv zeta. destruct (_ || _); rewrite ?nl_log, ?emit_log; reflexivity. Qed.

  (** calls that assign f.err without looking at it *)
  Definition overwrites (c : call A) : bool :=
    match c with
    | ClearError | TransformEnd | TransformScale _ _ _ _ | TransformSkew _ _ _ _ | SetPageBoxRec _ => true
    | _ => false
    end.

  Lemma simple_errof c s s' e : simple c = true -> overwrites c = false -> errof s = Some e ->
    step core_font asm no_runner c s = Some s' -> errof s' = Some e.
  Proof.
    intros H1 H2 He. assert (Hf : failed s = true) by (unfold failed; now rewrite He).
    destruct c; try discriminate H1; try discriminate H2; clear H1 H2; cbn [step]; intros HH; try (injection HH as <-); try exact He;
      try solve [open_simple; rewrite ?Hf; split_ifs; repeat (progress errs); try exact He; cbn; repeat (progress errs); exact He].
    - rewrite set_font_failed; auto.
    - rewrite set_font_failed; auto.
    - revert HH. unfold set_link. cbv zeta. destruct (_ && _); [|discriminate]. now intros [= <-].
  Qed.

  (** the error survives one call, if it survives the registered functions *)
  Lemma step_errof r c s s' e :
    (forall p s b s' e, okp (fun c => overwrites c = false) p -> hooks_ok (fun c => overwrites c = false) s ->
       errof s = Some e -> r p s = Some (b, s') -> errof s' = Some e) ->
    hooks_ok (fun c => overwrites c = false) s ->
    overwrites c = false -> errof s = Some e -> step core_font asm r c s = Some s' -> errof s' = Some e.
  Proof.
    intros Hr Hh H2 He. assert (Hf : failed s = true) by (unfold failed; now rewrite He).
    destruct (simple c) eqn:Es; [rewrite simple_step by exact Es; now apply simple_errof|].
    destruct c; try discriminate Es; cbn [step].
    - unfold add_page. rewrite Hf. now intros [= <-].
    - unfold add_page_format. rewrite Hf. now intros [= <-].
    - unfold close. rewrite Hf. cbv zeta. rewrite Hf. now intros [= <-].
    - unfold output. rewrite Hf. now intros [= <-].
    - unfold output_file. rewrite Hf. now intros [= <-].
    - unfold cell_format. rewrite Hf. now intros [= <-].
    - unfold image_out. destruct (image_size _ _ _ _ _ _) as [w' h'].
      destruct flow; [|intros [= <-]; now rewrite image_place_errof].
      destruct (break_wanted r h' s) as [[b s1]|] eqn:E1; [|discriminate].
      assert (H1 : errof s1 = Some e).
      { revert E1. unfold break_wanted, accept_break. cbv zeta.
        destruct (_ && _ && _); [|now intros [= _ <-]].
        destruct (h_accept (t_hook s)) as [p|] eqn:E; [|now intros [= _ <-]].
        apply Hr; auto. destruct Hh as (_ & _ & _ & K). now apply K. }
      assert (Hf1 : failed s1 = true) by (unfold failed; now rewrite H1).
      unfold add_page_format. rewrite Hf1. cbv zeta. rewrite Hf1. destruct b.
      + now intros [= <-].
      + intros [= <-]. rewrite image_place_errof. exact H1.
  Qed.

  (** what Output has sent to writers so far, one list per call *)
  Definition outputs s : list (list chunk) :=
    flat_map (fun e => match e with EvWrote l => [l] | _ => [] end) (t_log s).

  Lemma simple_outputs c s s' : simple c = true -> step core_font asm no_runner c s = Some s' -> outputs s' = outputs s.
  Proof.
    assert (HF : forall fam sty size, outputs (set_font core_font fam sty size s) = outputs s).
    { intros fam sty size. unfold set_font, select_font, add_font, force_err, outputs. split_ifs; cbn; rewrite ?eop_log; reflexivity. }
    intros H1. destruct c; try discriminate H1; clear H1; cbn [step]; intros HH; try (injection HH as <-); try reflexivity; auto;
      try solve [unfold outputs; open_simple; try destruct (failed s); split_ifs; cbn; rewrite ?eop_log, ?emit_log; cbn; rewrite ?emit_log; reflexivity].
    - unfold outputs. split_ifs; [|reflexivity]. cbn. rewrite flat_map_app. cbn. now rewrite app_nil_r.
    - revert HH. unfold set_link. cbv zeta. destruct (_ && _); [|discriminate]. now intros [= <-].
  Qed.

  Definition not_clear (c : call A) : Prop := c <> ClearError.

  Lemma simple_failed c s s' : simple c = true -> c <> ClearError -> failed s = true ->
    step core_font asm no_runner c s = Some s' -> failed s' = true.
  Proof.
    intros H1 H2 Hf H. destruct (overwrites c) eqn:E.
    - destruct c; try discriminate E; try contradiction; cbn in H; injection H as <-; open_simple; split_ifs; rewrite ?emit_failed; auto.
    - apply failed_true in Hf as [e He]. apply failed_true. exists e. eapply simple_errof; eauto.
  Qed.

  (** once an error is recorded nothing is written any more *)
  Lemma step_silent r c s s' :
    (forall p s b s', okp not_clear p -> hooks_ok not_clear s -> failed s = true -> r p s = Some (b, s') ->
       failed s' = true /\ outputs s' = outputs s) ->
    hooks_ok not_clear s -> not_clear c -> failed s = true -> step core_font asm r c s = Some s' ->
    failed s' = true /\ outputs s' = outputs s.
  Proof.
    intros Hr Hh H2 Hf.
    destruct (simple c) eqn:Es.
    { rewrite simple_step by exact Es. intros H. split; [eapply simple_failed; eauto|eapply simple_outputs; eauto]. }
    destruct c; try discriminate Es; cbn [step].
    - unfold add_page. rewrite Hf. now intros [= <-].
    - unfold add_page_format. rewrite Hf. now intros [= <-].
    - unfold close. rewrite Hf. cbv zeta. rewrite Hf. now intros [= <-].
    - unfold output. rewrite Hf. now intros [= <-].
    - unfold output_file. rewrite Hf. now intros [= <-].
    - unfold cell_format. rewrite Hf. now intros [= <-].
    - unfold image_out. destruct (image_size _ _ _ _ _ _) as [w' h'].
      assert (HI : forall s1 y, failed s1 = true -> outputs s1 = outputs s ->
        failed (image_place id x y w' h' negx l u s1) = true /\ outputs (image_place id x y w' h' negx l u s1) = outputs s).
      { intros s1 y0 F1 O1. split; [unfold failed; rewrite image_place_errof; exact F1|].
        unfold outputs. rewrite image_place_log. exact O1. }
      destruct flow; [|intros [= <-]; now apply HI].
      destruct (break_wanted r h' s) as [[b s1]|] eqn:E1; [|discriminate].
      assert (H1 : failed s1 = true /\ outputs s1 = outputs s).
      { revert E1. unfold break_wanted, accept_break. cbv zeta.
        destruct (_ && _ && _); [|now intros [= _ <-]].
        destruct (h_accept (t_hook s)) as [p|] eqn:E; [|now intros [= _ <-]].
        apply Hr; auto. destruct Hh as (_ & _ & _ & K). now apply K. }
      destruct H1 as [Hf1 Ho1].
      unfold add_page_format. rewrite Hf1. cbv zeta. rewrite Hf1. destruct b.
      + now intros [= <-].
      + intros [= <-]. apply HI; auto.
  Qed.
End Err.
