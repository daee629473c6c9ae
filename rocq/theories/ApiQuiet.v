(** Functions that turn no page: what the header, footer and page break
    functions of most applications leave alone. *)
From Verif Require Import Base ApiModel ApiProofs ApiErr.
Local Open Scope list_scope.
Local Open Scope Z_scope.

Section Quiet.
  Context {A : arith} (core_font : bytes -> bytes -> fontdef + bytes)
    (asm : st A -> option (bytes * option error)).
  Implicit Types s : st A.

  (** calls that do not ask for a page, choose a page or finish the document *)
  Definition quiet (c : call A) : bool :=
    match c with
    | AddPage | AddPageFormat _ _ _ | SetPage _ | Close | Output _ | OutputFileAndClose _ _ => false
    | _ => true
    end.

  (** the current page, the number of pages, the state of the document, the
      other pages and the record of events are as before *)
  Definition frame s s' : Prop :=
    l_state (t_life s') = l_state (t_life s) /\ pageno s' = pageno s /\
    length (l_pages (t_life s')) = length (l_pages (t_life s)) /\ t_log s' = t_log s /\
    h_inh (t_hook s') = h_inh (t_hook s) /\ h_inf (t_hook s') = h_inf (t_hook s) /\
    (l_state (t_life s) = 2 -> l_buf (t_life s') = l_buf (t_life s)) /\
    (forall i, i <> pageno s -> nth_error (l_pages (t_life s')) i = nth_error (l_pages (t_life s)) i).

  Lemma frame_refl s : frame s s.
  Proof. unfold frame. repeat split; auto. Qed.
  Lemma frame_trans a b c : frame a b -> frame b c -> frame a c.
  Proof.
    intros (A1 & A2 & A3 & A4 & A5 & A6 & A7 & A8) (B1 & B2 & B3 & B4 & B5 & B6 & B7 & B8).
    unfold frame. repeat split; try congruence.
    - intros H. rewrite B7, A7; congruence.
    - intros i Hi. rewrite B8, A8; congruence.
  Qed.

  Lemma nth_error_upd {B} n (u : B -> B) l i : i <> n -> nth_error (upd n u l) i = nth_error l i.
  Proof.
    revert n i. induction l as [|a l IH]; intros [|n] [|i] H; simpl; auto; try congruence.
  Qed.
  Lemma nth_error_upd_eq {B} n (u : B -> B) l a : nth_error l n = Some a -> nth_error (upd n u l) n = Some (u a).
  Proof. revert n. induction l as [|b l IH]; intros [|n]; simpl; try discriminate; [congruence|]. apply IH. Qed.

  Lemma frame_life s s' : t_life s' = t_life s -> t_log s' = t_log s ->
    h_inh (t_hook s') = h_inh (t_hook s) -> h_inf (t_hook s') = h_inf (t_hook s) -> frame s s'.
  Proof. intros E1 E2 E3 E4. unfold frame, pageno. rewrite E1. repeat split; auto. Qed.

  Lemma frame_gfx u s : frame s (on_gfx u s). Proof. now apply frame_life. Qed.
  Lemma frame_fnt u s : frame s (on_fnt u s). Proof. now apply frame_life. Qed.
  Lemma frame_geo u s : frame s (on_geo u s). Proof. now apply frame_life. Qed.
  Lemma frame_nest u s : frame s (on_nest u s). Proof. now apply frame_life. Qed.
  Lemma frame_links u s : frame s (st_links u s). Proof. now apply frame_life. Qed.
  Lemma frame_err e s : frame s (force_err e s).
  Proof. unfold frame, pageno. cbn. repeat split; auto. Qed.
  Lemma frame_clear s : frame s (on_life (sl_err None) s).
  Proof. unfold frame, pageno. cbn. repeat split; auto. Qed.
  Lemma frame_emit l s : frame s (emit l s).
  Proof.
    unfold frame. rewrite emit_state, emit_pageno, emit_count, emit_log, emit_hook. repeat split; auto.
    - intros H. unfold emit. rewrite H. cbn. reflexivity.
    - intros i Hi. unfold emit. destruct (_ =? _); [|reflexivity]. cbn. now apply nth_error_upd.
  Qed.
  Lemma frame_eop l s : frame s (emit_on_page l s).
  Proof. unfold emit_on_page. destruct (on_page s); [apply frame_emit|apply frame_refl]. Qed.
  Lemma frame_link a b c d e f s : frame s (new_link a b c d e f s).
  Proof.
    unfold frame. rewrite nl_state, nl_pageno, nl_count, nl_log, nl_hook. repeat split; auto.
    intros i Hi. unfold new_link. cbn. now apply nth_error_upd.
  Qed.

  (** chains of these *)
  Ltac fr :=
    match goal with
    | |- frame ?s ?s => apply frame_refl
    | |- frame _ (emit _ _) => eapply frame_trans; [|apply frame_emit]; fr
    | |- frame _ (emit_on_page _ _) => eapply frame_trans; [|apply frame_eop]; fr
    | |- frame _ (new_link _ _ _ _ _ _ _) => eapply frame_trans; [|apply frame_link]; fr
    | |- frame _ (on_gfx _ _) => eapply frame_trans; [|apply frame_gfx]; fr
    | |- frame _ (on_fnt _ _) => eapply frame_trans; [|apply frame_fnt]; fr
    | |- frame _ (on_geo _ _) => eapply frame_trans; [|apply frame_geo]; fr
    | |- frame _ (on_nest _ _) => eapply frame_trans; [|apply frame_nest]; fr
    | |- frame _ (st_links _ _) => eapply frame_trans; [|apply frame_links]; fr
    | |- frame _ (force_err _ _) => eapply frame_trans; [|apply frame_err]; fr
    | |- frame _ (on_life (sl_err None) _) => eapply frame_trans; [|apply frame_clear]; fr
    end.

  Lemma frame_set_font fam sty size s : frame s (set_font core_font fam sty size s).
  Proof. unfold set_font, select_font, add_font. split_ifs; fr. Qed.

  Lemma frame_hook u s : h_inh (u (t_hook s)) = h_inh (t_hook s) -> h_inf (u (t_hook s)) = h_inf (t_hook s) -> frame s (on_hook u s).
  Proof. intros. now apply frame_life. Qed.

  Lemma simple_frame c s s' : simple c = true -> quiet c = true -> step core_font asm no_runner c s = Some s' -> frame s s'.
  Proof.
    intros H1 H2. destruct c; try discriminate H1; try discriminate H2; clear H1 H2; cbn [step]; intros HH; try (injection HH as <-);
      try (apply frame_hook; reflexivity); try (apply frame_set_font);
      try solve [open_simple; try destruct (failed s); split_ifs; fr].
    revert HH. unfold set_link. cbv zeta. destruct (_ && _); [|discriminate]. intros [= <-]. fr.
  Qed.

  Lemma frame_cell w h txt border ln align fill l u s : frame s (cell_body w h txt border ln align fill l u s).
  Proof.
    unfold cell_body. cbv zeta.
    set (s1 := match txt with [] => s | _ :: _ => _ end).
    assert (H : frame s s1) by (unfold s1; destruct txt; [apply frame_refl|]; destruct (_ || _); fr).
    clearbody s1. eapply frame_trans; [exact H|].
    destruct (_ ++ _); destruct (ln >? 0); fr.
  Qed.
  Lemma frame_image id x y w h negx l u s : frame s (image_place id x y w h negx l u s).
  Proof. unfold image_place. cbv zeta. destruct (_ || _); fr. Qed.

  Lemma no_break r h s : h_inh (t_hook s) || h_inf (t_hook s) = true -> break_wanted r h s = Some (false, s).
  Proof.
    intros H. unfold break_wanted. cbv zeta.
    replace (_ && _ && _) with false; [reflexivity|].
    destruct (h_inh _), (h_inf _); try discriminate H; cbn; rewrite ?andb_false_r; reflexivity.
  Qed.

  Lemma step_quiet r c s s' : quiet c = true -> h_inh (t_hook s) || h_inf (t_hook s) = true ->
    step core_font asm r c s = Some s' -> frame s s'.
  Proof.
    intros Hq Hin. destruct (simple c) eqn:Es; [rewrite simple_step by exact Es; now apply simple_frame|].
    destruct c; try discriminate Es; try discriminate Hq; cbn [step].
    - unfold cell_format. destruct (failed s); [intros [= <-]; apply frame_refl|].
      destruct (beqb _ _); [intros [= <-]; fr|].
      cbv zeta. unfold cell_break. rewrite no_break by exact Hin. intros [= <-]. apply frame_cell.
    - unfold image_out. destruct (image_size _ _ _ _ _ _) as [w' h'].
      rewrite no_break by exact Hin. destruct flow; intros [= <-]; [|apply frame_image].
      eapply frame_trans; [apply frame_geo|apply frame_image].
  Qed.

  (** a header or footer made of quiet calls turns no page and logs nothing *)
  Lemma run_quiet n p s b s' : okp (fun c => quiet c = true) p -> h_inh (t_hook s) || h_inf (t_hook s) = true ->
    run core_font asm n p s = Some (b, s') -> frame s s'.
  Proof.
    revert s b s'. induction p as [b0|c k IH]; intros s b s' Hp Hin; cbn.
    - intros [= <- <-]. apply frame_refl.
    - destruct Hp as [Hc Hk]. apply okc_self in Hc. destruct (exec core_font asm n c s) as [s1|] eqn:E; [|discriminate].
      destruct n as [|n]; [discriminate E|]. cbn in E.
      pose proof (step_quiet _ _ _ _ Hc Hin E) as H1. intros H.
      eapply frame_trans; [exact H1|]. eapply IH; [apply Hk| |exact H].
      destruct H1 as (_ & _ & _ & _ & -> & -> & _). exact Hin.
  Qed.

  Lemma frame_open_page v s : frame s (fst (open_page core_font v s)).
  Proof.
    unfold open_page. cbv zeta.
    assert (H1 : frame s (put_font core_font v (open_lines v s))).
    { eapply frame_trans with (b := open_lines v s).
      - unfold open_lines. cbv zeta. destruct (g_dash _); fr.
      - unfold put_font. destruct (v_fam v); [apply frame_refl|apply frame_set_font]. }
    eapply frame_trans; [exact H1|]. destruct (stops _ _); cbn; [apply frame_refl|].
    unfold put_text, open_fill, open_draw. cbv zeta. split_ifs; fr.
  Qed.
  Lemma frame_put_back v s : frame s (put_back core_font v s).
  Proof.
    unfold put_back. cbv zeta.
    assert (H1 : frame s (put_font core_font v (back_width v s))).
    { eapply frame_trans with (b := back_width v s).
      - unfold back_width. destruct (neq _ _ _); fr.
      - unfold put_font. destruct (v_fam v); [apply frame_refl|apply frame_set_font]. }
    eapply frame_trans; [exact H1|]. destruct (stops _ _); cbn; [apply frame_refl|].
    unfold put_text. apply frame_trans with (b := back_fill v (back_draw v (put_font core_font v (back_width v s)))); [|fr].
    apply frame_trans with (b := back_draw v (put_font core_font v (back_width v s))).
    - unfold back_draw. destruct (beqb _ _); fr.
    - unfold back_fill. destruct (beqb _ _); fr.
  Qed.
  Lemma frame_home s : frame s (set_home s).
  Proof. unfold set_home, set_x, set_y. cbv zeta. fr. Qed.
End Quiet.
