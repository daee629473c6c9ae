(** Facts about the API state machine of ApiModel: what each helper leaves
    alone, and the induction principle over programs and registered
    functions that the properties use. *)
From Verif Require Import Base ApiModel.
Local Open Scope Z_scope.

#[global] Arguments emit {A} l s : simpl never.
#[global] Arguments emit_on_page {A} l s : simpl never.
#[global] Arguments new_link {A} x y w h id url s : simpl never.
#[global] Arguments failed {A} s : simpl never.
#[global] Arguments errof {A} s : simpl never.
#[global] Arguments pageno {A} s : simpl never.
#[global] Arguments set_font {A} core_font fam sty size s : simpl never.
#[global] Arguments begin_page {A} o w h s : simpl never.

Section Facts.
  Context {A : arith}.
  Implicit Types s : st A.

  Lemma failed_true s : failed s = true <-> exists e, errof s = Some e.
  Proof. unfold failed. destruct (errof s); split; intros H; try easy; eauto. now destruct H. Qed.
  Lemma failed_false s : failed s = false <-> errof s = None.
  Proof. unfold failed. destruct (errof s); split; intros H; easy. Qed.

  Lemma emit_gfx l s : t_gfx (emit l s) = t_gfx s.
  Proof. unfold emit. now destruct (_ =? _). Qed.
  Lemma emit_fnt l s : t_fnt (emit l s) = t_fnt s.
  Proof. unfold emit. now destruct (_ =? _). Qed.
  Lemma emit_geo l s : t_geo (emit l s) = t_geo s.
  Proof. unfold emit. now destruct (_ =? _). Qed.
  Lemma emit_nest l s : t_nest (emit l s) = t_nest s.
  Proof. unfold emit. now destruct (_ =? _). Qed.
  Lemma emit_hook l s : t_hook (emit l s) = t_hook s.
  Proof. unfold emit. now destruct (_ =? _). Qed.
  Lemma emit_links l s : t_links (emit l s) = t_links s.
  Proof. unfold emit. now destruct (_ =? _). Qed.
  Lemma emit_log l s : t_log (emit l s) = t_log s.
  Proof. unfold emit. now destruct (_ =? _). Qed.
  Lemma emit_errof l s : errof (emit l s) = errof s.
  Proof. unfold emit. now destruct (_ =? _). Qed.
  Lemma emit_failed l s : failed (emit l s) = failed s.
  Proof. unfold failed. now rewrite emit_errof. Qed.
  Lemma emit_state l s : l_state (t_life (emit l s)) = l_state (t_life s).
  Proof. unfold emit. now destruct (_ =? _). Qed.
  Lemma emit_pageno l s : pageno (emit l s) = pageno s.
  Proof. unfold emit. now destruct (_ =? _). Qed.
  Lemma emit_on_page_ l s : on_page (emit l s) = on_page s.
  Proof. unfold on_page. now rewrite emit_pageno. Qed.
  Lemma length_upd {B} n (u : B -> B) l : length (upd n u l) = length l.
  Proof. revert n. induction l as [|a l IH]; intros [|n]; simpl; auto. Qed.
  Lemma emit_count l s : length (l_pages (t_life (emit l s))) = length (l_pages (t_life s)).
  Proof. unfold emit. destruct (_ =? _); [|reflexivity]. cbn. now rewrite length_upd. Qed.

  Lemma eop_gfx l s : t_gfx (emit_on_page l s) = t_gfx s.
  Proof. unfold emit_on_page. destruct (on_page s); [apply emit_gfx|reflexivity]. Qed.
  Lemma eop_fnt l s : t_fnt (emit_on_page l s) = t_fnt s.
  Proof. unfold emit_on_page. destruct (on_page s); [apply emit_fnt|reflexivity]. Qed.
  Lemma eop_geo l s : t_geo (emit_on_page l s) = t_geo s.
  Proof. unfold emit_on_page. destruct (on_page s); [apply emit_geo|reflexivity]. Qed.
  Lemma eop_nest l s : t_nest (emit_on_page l s) = t_nest s.
  Proof. unfold emit_on_page. destruct (on_page s); [apply emit_nest|reflexivity]. Qed.
  Lemma eop_hook l s : t_hook (emit_on_page l s) = t_hook s.
  Proof. unfold emit_on_page. destruct (on_page s); [apply emit_hook|reflexivity]. Qed.
  Lemma eop_links l s : t_links (emit_on_page l s) = t_links s.
  Proof. unfold emit_on_page. destruct (on_page s); [apply emit_links|reflexivity]. Qed.
  Lemma eop_log l s : t_log (emit_on_page l s) = t_log s.
  Proof. unfold emit_on_page. destruct (on_page s); [apply emit_log|reflexivity]. Qed.
  Lemma eop_errof l s : errof (emit_on_page l s) = errof s.
  Proof. unfold emit_on_page. destruct (on_page s); [apply emit_errof|reflexivity]. Qed.
  Lemma eop_failed l s : failed (emit_on_page l s) = failed s.
  Proof. unfold failed. now rewrite eop_errof. Qed.
  Lemma eop_state l s : l_state (t_life (emit_on_page l s)) = l_state (t_life s).
  Proof. unfold emit_on_page. destruct (on_page s); [apply emit_state|reflexivity]. Qed.
  Lemma eop_pageno l s : pageno (emit_on_page l s) = pageno s.
  Proof. unfold emit_on_page. destruct (on_page s); [apply emit_pageno|reflexivity]. Qed.
  Lemma eop_count l s : length (l_pages (t_life (emit_on_page l s))) = length (l_pages (t_life s)).
  Proof. unfold emit_on_page. destruct (on_page s); [apply emit_count|reflexivity]. Qed.

  Lemma nl_gfx a b c d e f s : t_gfx (new_link a b c d e f s) = t_gfx s. Proof. reflexivity. Qed.
  Lemma nl_fnt a b c d e f s : t_fnt (new_link a b c d e f s) = t_fnt s. Proof. reflexivity. Qed.
  Lemma nl_geo a b c d e f s : t_geo (new_link a b c d e f s) = t_geo s. Proof. reflexivity. Qed.
  Lemma nl_nest a b c d e f s : t_nest (new_link a b c d e f s) = t_nest s. Proof. reflexivity. Qed.
  Lemma nl_hook a b c d e f s : t_hook (new_link a b c d e f s) = t_hook s. Proof. reflexivity. Qed.
  Lemma nl_links a b c d e f s : t_links (new_link a b c d e f s) = t_links s. Proof. reflexivity. Qed.
  Lemma nl_log a b c d e f s : t_log (new_link a b c d e f s) = t_log s. Proof. reflexivity. Qed.
  Lemma nl_errof a b c d e f s : errof (new_link a b c d e f s) = errof s. Proof. reflexivity. Qed.
  Lemma nl_failed a b c d e f s : failed (new_link a b c d e f s) = failed s. Proof. reflexivity. Qed.
  Lemma nl_state a b c d e f s : l_state (t_life (new_link a b c d e f s)) = l_state (t_life s). Proof. reflexivity. Qed.
  Lemma nl_pageno a b c d e f s : pageno (new_link a b c d e f s) = pageno s. Proof. reflexivity. Qed.
  Lemma nl_count a b c d e f s : length (l_pages (t_life (new_link a b c d e f s))) = length (l_pages (t_life s)).
  Proof. unfold new_link. cbn. now rewrite length_upd. Qed.

  (** updates of one group do not touch the error *)
  Lemma og_failed u s : failed (on_gfx u s) = failed s. Proof. reflexivity. Qed.
  Lemma of_failed u s : failed (on_fnt u s) = failed s. Proof. reflexivity. Qed.
  Lemma ox_failed u s : failed (on_geo u s) = failed s. Proof. reflexivity. Qed.
  Lemma on_failed u s : failed (on_nest u s) = failed s. Proof. reflexivity. Qed.
  Lemma oh_failed u s : failed (on_hook u s) = failed s. Proof. reflexivity. Qed.
  Lemma ol_failed e s : failed (log e s) = failed s. Proof. reflexivity. Qed.
  Lemma og_errof u s : errof (on_gfx u s) = errof s. Proof. reflexivity. Qed.
  Lemma og_pageno u s : pageno (on_gfx u s) = pageno s. Proof. reflexivity. Qed.
  Lemma of_errof u s : errof (on_fnt u s) = errof s. Proof. reflexivity. Qed.
  Lemma of_pageno u s : pageno (on_fnt u s) = pageno s. Proof. reflexivity. Qed.
  Lemma ox_errof u s : errof (on_geo u s) = errof s. Proof. reflexivity. Qed.
  Lemma ox_pageno u s : pageno (on_geo u s) = pageno s. Proof. reflexivity. Qed.
  Lemma on_errof u s : errof (on_nest u s) = errof s. Proof. reflexivity. Qed.
  Lemma on_pageno u s : pageno (on_nest u s) = pageno s. Proof. reflexivity. Qed.
  Lemma oh_errof u s : errof (on_hook u s) = errof s. Proof. reflexivity. Qed.
  Lemma oh_pageno u s : pageno (on_hook u s) = pageno s. Proof. reflexivity. Qed.
  Lemma ol_errof u s : errof (log u s) = errof s. Proof. reflexivity. Qed.
  Lemma ol_pageno u s : pageno (log u s) = pageno s. Proof. reflexivity. Qed.
  Lemma fe_failed e s : failed (force_err e s) = true. Proof. reflexivity. Qed.
  Lemma fail_failed e s : failed (fail e s) = true.
  Proof. unfold fail. destruct (failed s) eqn:E; auto. Qed.
End Facts.
Ltac errs := rewrite ?eop_errof, ?emit_errof, ?og_errof, ?of_errof, ?ox_errof, ?on_errof, ?oh_errof, ?ol_errof, ?nl_errof.

(** [okp P p]: every call the program p can make, in whatever state it finds
    itself, satisfies P, and so does every call of the functions it registers. *)
Section Allowed.
  Context {A : arith} (P : call A -> Prop).
  Fixpoint okp (p : prog A) : Prop :=
    match p with
    | Done _ => True
    | Step c k => okc c /\ forall o, okp (k o)
    end
  with okc (c : call A) : Prop :=
    P c /\
    match c with
    | SetHeaderFunc (Some p) => okp p
    | SetHeaderFuncMode (Some p) _ => okp p
    | SetFooterFunc (Some p) => okp p
    | SetFooterFuncLpi (Some p) => forall b, okp (p b)
    | SetAcceptPageBreakFunc p => okp p
    | _ => True
    end.

  Lemma okc_self c : okc c -> P c.
  Proof. destruct c; intros H; apply H. Qed.

  (** the registered functions satisfy P as well *)
  Definition hooks_ok (s : st A) : Prop :=
    let h := t_hook s in
    (forall p, h_head h = Some p -> okp p) /\
    (forall p, h_foot h = Some p -> okp p) /\
    (forall p b, h_footl h = Some p -> okp (p b)) /\
    (forall p, h_accept h = Some p -> okp p).
End Allowed.

(** Every call is a sequence of elementary transitions and of runs of
    registered functions.  [V] is what is known of the values AddPageFormat
    saves before it runs them. *)
Section Path.
  Context {A : arith} (core_font : bytes -> bytes -> fontdef + bytes)
    (asm : st A -> option (bytes * option error)).
  Implicit Types s : st A.

  (** calls that run no registered function *)
  Definition simple (c : call A) : bool :=
    match c with
    | AddPage | AddPageFormat _ _ _ | Close | Output _ | OutputFileAndClose _ _
    | CellFormat _ _ _ _ _ _ _ _ _ | ImageOut _ _ _ _ _ _ _ _ _ _ _ _ => false
    | _ => true
    end.
  Definition no_runner : @runner A := fun _ _ => None.

  Lemma simple_step r c s : simple c = true -> step core_font asm r c s = step core_font asm no_runner c s.
  Proof. destruct c; intros H; try discriminate H; reflexivity. Qed.

  (** some call that writes the document is allowed *)
  Definition may_write (P : call A -> Prop) : Prop := (exists w, P (Output w)) \/ (exists c w, P (OutputFileAndClose c w)).

  Inductive prim (P : call A -> Prop) (V : saved -> Prop) : st A -> st A -> Prop :=
  | PCall c s s' : simple c = true -> okc P c -> step core_font asm no_runner c s = Some s' -> prim P V s s'
  | PInF b s : prim P V s (on_hook (sh_inf b) s)
  | PInH b s : prim P V s (on_hook (sh_inh b) s)
  | PLogF s b : prim P V s (log (EvFooter (pageno s) b) s)
  | PLogH s : prim P V s (log (EvHeader (pageno s)) s)
  | PEnd s : prim P V s (end_page s)
  | PStart s : failed s = false -> prim P V s (start_page s)
  | PNew v o w h s : V v -> prim P V s (fst (open_page core_font v (begin_page o w h s)))
  | PBack v s : V v -> prim P V s (put_back core_font v s)
  | PHome s : prim P V s (set_home s)
  | PErr e s : failed s = false -> prim P V s (force_err e s)
  | PDoc s s' : l_state (t_life s) = 1 -> end_doc asm s = Some s' -> prim P V s s'
  | PWrite w s : may_write P -> prim P V s (write_to w s)
  | PTw0 s : prim P V s (emit [Tw (ofZ A 0)] (on_geo (sx_ws (ofZ A 0)) s))
  | PTw ws v s : prim P V s (emit [Tw v] (on_geo (sx_ws ws) s))
  | PSetX x s : prim P V s (on_geo (sx_x x) s)
  | PAddY h s : prim P V s (on_geo (fun g => sx_y (nadd A (x_y g) h) g) s)
  | PCell w h txt border ln align fill l u s : prim P V s (cell_body w h txt border ln align fill l u s)
  | PImage id x y w h negx l u s : prim P V s (image_place id x y w h negx l u s).


  Lemma set_font_hook fam sty size s : t_hook (set_font core_font fam sty size s) = t_hook s.
  Proof.
    unfold set_font, select_font, add_font, force_err.
    repeat match goal with
    | |- context [if ?b then _ else _] => destruct b eqn:?
    | |- context [match ?b with _ => _ end] => destruct b eqn:?
    end; rewrite ?eop_hook; reflexivity.
  Qed.

  Lemma put_font_hook v s : t_hook (put_font core_font v s) = t_hook s.
  Proof. unfold put_font. destruct (v_fam v); [reflexivity|apply set_font_hook]. Qed.

  Lemma begin_page_hook o w h s : t_hook (begin_page o w h s) = t_hook s.
  Proof.
    unfold begin_page. destruct (failed s); [reflexivity|].
    cbv zeta. unfold note_size. destruct (_ || _); reflexivity.
  Qed.

  Lemma open_lines_hook v s : t_hook (open_lines v s) = t_hook s.
  Proof. unfold open_lines. cbv zeta. destruct (g_dash _); now rewrite ?emit_hook. Qed.
  Lemma open_draw_hook v s : t_hook (open_draw v s) = t_hook s.
  Proof. unfold open_draw. cbv zeta. destruct (beqb _ _); now rewrite ?emit_hook. Qed.
  Lemma open_fill_hook v s : t_hook (open_fill v s) = t_hook s.
  Proof. unfold open_fill. cbv zeta. destruct (beqb _ _); now rewrite ?emit_hook. Qed.
  Lemma back_width_hook v s : t_hook (back_width v s) = t_hook s.
  Proof. unfold back_width. destruct (neq _ _ _); now rewrite ?emit_hook. Qed.
  Lemma back_draw_hook v s : t_hook (back_draw v s) = t_hook s.
  Proof. unfold back_draw. destruct (beqb _ _); now rewrite ?emit_hook. Qed.
  Lemma back_fill_hook v s : t_hook (back_fill v s) = t_hook s.
  Proof. unfold back_fill. destruct (beqb _ _); now rewrite ?emit_hook. Qed.

  Lemma open_page_hook v s : t_hook (fst (open_page core_font v s)) = t_hook s.
  Proof.
    unfold open_page. cbv zeta. destruct (stops _ _); cbn; rewrite ?open_fill_hook, ?open_draw_hook, put_font_hook; apply open_lines_hook.
  Qed.

  Lemma put_back_hook v s : t_hook (put_back core_font v s) = t_hook s.
  Proof.
    unfold put_back. cbv zeta. destruct (stops _ _); cbn; rewrite ?back_fill_hook, ?back_draw_hook, put_font_hook; apply back_width_hook.
  Qed.

  Lemma end_layer_hook s : t_hook (end_layer s) = t_hook s.
  Proof. unfold end_layer. destruct (n_layer _); cbn; now rewrite ?emit_hook. Qed.
  Lemma end_page_hook s : t_hook (end_page s) = t_hook s.
  Proof. unfold end_page. cbn. apply end_layer_hook. Qed.
  Lemma start_page_hook s : t_hook (start_page s) = t_hook s.
  Proof. unfold start_page. cbv zeta. destruct (Nat.eqb _ _); cbn [on_life st_life t_life sl_page l_state turn log st_log]; destruct (_ =? 0); reflexivity. Qed.
  Lemma end_doc_hook s s' : end_doc asm s = Some s' -> t_hook s' = t_hook s.
  Proof.
    unfold end_doc. destruct (failed s); [now intros [= <-]|].
    destruct (asm s) as [[b [e|]]|]; intros [= <-]; reflexivity.
  Qed.
  Lemma cell_body_hook w h txt border ln align fill l u s :
    t_hook (cell_body w h txt border ln align fill l u s) = t_hook s.
  Proof.
    unfold cell_body. cbv zeta.
    repeat match goal with |- context [on_geo ?f ?x] => progress change (t_hook (on_geo f x)) with (t_hook x) end.
    destruct (ln >? 0); cbn [on_geo st_geo t_hook]; (destruct (_ ++ _); rewrite ?emit_hook;
      (destruct txt; [reflexivity|]; destruct (_ || _); reflexivity)).
  Qed.
  Lemma image_place_hook id x y w h negx l u s :
    t_hook (image_place id x y w h negx l u s) = t_hook s.
  Proof. unfold image_place. cbv zeta. destruct (_ || _); rewrite ?nl_hook, ?emit_hook; reflexivity. Qed.

  Lemma transform_hook a b c d e f s : t_hook (transform a b c d e f s) = t_hook s.
  Proof. unfold transform, fail. destruct (_ >? _); [apply emit_hook|]. destruct (failed s); reflexivity. Qed.

  (** only the Set...Func calls touch the registered functions *)
  Definition registers (c : call A) : bool :=
    match c with
    | SetHeaderFunc _ | SetHeaderFuncMode _ _ | SetFooterFunc _ | SetFooterFuncLpi _ | SetAcceptPageBreakFunc _ => true
    | _ => false
    end.

  Lemma simple_hook c s s' : simple c = true -> registers c = false ->
    step core_font asm no_runner c s = Some s' -> t_hook s' = t_hook s.
  Proof.
    destruct c; intros H1 H2; try discriminate H1; try discriminate H2; clear H1 H2; cbn [step]; intros HH; try (injection HH as <-); try reflexivity;
      try solve [
        unfold fail, set_draw_color, set_fill_color, set_text_color, add_spot, set_draw_spot, set_fill_spot, set_text_spot, get_spot,
          set_line_width, set_cap, set_join, set_dash, set_alpha, add_font, set_font_size, set_font_unit_size, set_x, set_y, set_xy, set_home,
          line_break, text_at, clip_begin, clip_end, transform_begin, transform_end, transform_scale, transform_rotate, transform_skew,
          transform_translate, add_layer, begin_layer, add_link, move_to; cbv zeta;
        try destruct (failed s); repeat (match goal with
        | |- context [assoc ?a ?b] => destruct (assoc a b)
        | |- context [if ?b then _ else _] => destruct b
        | |- context [match ?b with _ => _ end] => destruct b
        end); cbn; rewrite ?eop_hook, ?emit_hook, ?transform_hook, ?end_layer_hook; reflexivity].
    - apply set_font_hook.
    - apply set_font_hook.
    - revert HH. unfold set_link. cbv zeta. destruct (_ && _); [|discriminate]. intros [= <-]. reflexivity.
  Qed.

  Lemma prim_hook P V s s' : prim P V s s' ->
    (exists c, simple c = true /\ registers c = true /\ okc P c /\ step core_font asm no_runner c s = Some s') \/
    t_hook s' = t_hook s \/ (exists b, t_hook s' = sh_inf b (t_hook s)) \/ (exists b, t_hook s' = sh_inh b (t_hook s)).
  Proof.
    intros H. destruct H; try (right; left; reflexivity).
    - destruct (registers c) eqn:E; [left; eauto|]. right; left. eapply simple_hook; eauto.
    - right; right; left. now exists b.
    - right; right; right. now exists b.
    - right; left. apply end_page_hook.
    - right; left. apply start_page_hook.
    - right; left. rewrite open_page_hook. apply begin_page_hook.
    - right; left. apply put_back_hook.
    - right; left. now apply end_doc_hook.
    - right; left. destruct w; reflexivity.
    - right; left. now rewrite emit_hook.
    - right; left. now rewrite emit_hook.
    - right; left. apply cell_body_hook.
    - right; left. apply image_place_hook.
  Qed.

  Lemma prim_hooks_ok P V s s' : prim P V s s' -> hooks_ok P s -> hooks_ok P s'.
  Proof.
    intros H Hh. destruct (prim_hook _ _ _ _ H) as [(c & H1 & H2 & H3 & H4)|[E|[[b E]|[b E]]]].
    - destruct Hh as (A1 & A2 & A3 & A4).
      destruct c; try discriminate H2; cbn in H4; injection H4 as <-; cbn in H3; destruct H3 as [_ H3];
        unfold hooks_ok; cbn; repeat split; try (intros q HH; subst; now auto); try (intros q b HH; subst; now auto);
        try (intros; subst; discriminate).
      + intros q b HH. rewrite HH in H3. apply H3.
      + intros q HH. injection HH as <-. exact H3.
    - unfold hooks_ok. rewrite E. exact Hh.
    - unfold hooks_ok. rewrite E. exact Hh.
    - unfold hooks_ok. rewrite E. exact Hh.
  Qed.
End Path.

(** Induction over programs.  [Inv] is kept by every elementary transition and
    [Rel] relates the states before and after it; both then hold of every call
    and of every program. *)
Section Induction.
  Context {A : arith} (core_font : bytes -> bytes -> fontdef + bytes)
    (asm : st A -> option (bytes * option error)).
  Context (P : call A -> Prop) (Inv : st A -> Prop) (Rel : st A -> st A -> Prop) (V : @saved A -> Prop).
  Hypothesis Hrefl : forall s, Inv s -> Rel s s.
  Hypothesis Htrans : forall a b c, Rel a b -> Rel b c -> Rel a c.

  Definition reaches (s s' : st A) : Prop := hooks_ok P s' /\ Inv s' /\ Rel s s'.
  Definition good (r : @runner A) : Prop :=
    forall p s b s', okp P p -> hooks_ok P s -> Inv s -> r p s = Some (b, s') -> reaches s s'.

  Lemma run_with_good ex :
    (forall c s s', okc P c -> hooks_ok P s -> Inv s -> ex c s = Some s' -> reaches s s') ->
    good (run_with ex).
  Proof.
    intros Hex p. induction p as [b0|c k IH]; intros s b s' Hp Hh Hi Hr; cbn in Hr.
    - injection Hr as <- <-. repeat split; auto; apply Hh.
    - destruct (ex c s) as [s1|] eqn:E; [|discriminate].
      destruct Hp as [Hc Hk].
      destruct (Hex _ _ _ Hc Hh Hi E) as (H1 & H2 & H3).
      destruct (IH _ _ _ _ (Hk _) H1 H2 Hr) as (H4 & H5 & H6). repeat split; eauto; apply H4.
  Qed.

  Section FromStep.
    Hypothesis Hstep : forall r, good r -> forall c s s',
      okc P c -> hooks_ok P s -> Inv s -> step core_font asm r c s = Some s' -> reaches s s'.

    Lemma exec_good_step n c s s' :
      okc P c -> hooks_ok P s -> Inv s -> exec core_font asm n c s = Some s' -> reaches s s'.
    Proof.
      revert c s s'. induction n as [|n IH]; intros c s s' Hc Hh Hi H; cbn in H; [discriminate|].
      eapply Hstep; eauto. now apply run_with_good.
    Qed.

    Lemma run_good_step n : good (run core_font asm n).
    Proof. apply run_with_good. intros. eapply exec_good_step; eauto. Qed.
  End FromStep.

  Hypothesis Hsave : forall s, Inv s -> V (save_state s).
  Hypothesis Hprim : forall s s', prim core_font asm P V s s' -> hooks_ok P s -> Inv s -> Inv s' /\ Rel s s'.

  Lemma reach_prim s s' : prim core_font asm P V s s' -> hooks_ok P s -> Inv s -> reaches s s'.
  Proof. intros H Hh Hi. split; [eapply prim_hooks_ok; eauto|]. eauto. Qed.
  Lemma reach_refl s : hooks_ok P s -> Inv s -> reaches s s.
  Proof. intros. split; [|split]; auto. Qed.
  Lemma reach_trans a b c : reaches a b -> (hooks_ok P b -> Inv b -> reaches b c) -> reaches a c.
  Proof. intros (H1 & H2 & H3) H. destruct (H H1 H2) as (H4 & H5 & H6). repeat split; eauto; apply H4. Qed.

  Section Composite.
    Context (r : @runner A) (Hr : good r).

    Lemma call_hook_reach p s s' : okp P p -> hooks_ok P s -> Inv s -> call_hook r p s = Some s' -> reaches s s'.
    Proof.
      intros Hp Hh Hi. unfold call_hook. destruct (r p s) as [[b s1]|] eqn:E; [|discriminate].
      intros [= <-]. eapply Hr; eauto.
    Qed.

    Lemma run_footer_reach last s s' : hooks_ok P s -> Inv s -> run_footer r last s = Some s' -> reaches s s'.
    Proof.
      intros Hh Hi. unfold run_footer. cbv zeta.
      pose proof (reach_prim _ _ (PInF core_font asm P V true s) Hh Hi) as H1.
      set (s1 := on_hook (sh_inf true) s) in *.
      destruct (h_foot (t_hook s1)) as [p|] eqn:E1; [|destruct (h_footl (t_hook s1)) as [p|] eqn:E2].
      - destruct (call_hook _ _ _) as [s2|] eqn:E; [|discriminate]. intros [= <-].
        eapply reach_trans; [exact H1|]. intros Hh1 Hi1.
        eapply reach_trans; [apply (reach_prim _ _ (PLogF core_font asm P V s1 None)); assumption|]. intros Hh2 Hi2.
        eapply reach_trans; [eapply call_hook_reach; [|exact Hh2|exact Hi2|exact E]; destruct Hh1 as (_ & K & _); apply K; exact E1|].
        apply reach_prim. constructor.
      - destruct (call_hook _ _ _) as [s2|] eqn:E; [|discriminate]. intros [= <-].
        eapply reach_trans; [exact H1|]. intros Hh1 Hi1.
        eapply reach_trans; [apply (reach_prim _ _ (PLogF core_font asm P V s1 (Some last))); assumption|]. intros Hh2 Hi2.
        eapply reach_trans; [eapply call_hook_reach; [|exact Hh2|exact Hi2|exact E]; destruct Hh1 as (_ & _ & K & _); apply K; exact E2|].
        apply reach_prim. constructor.
      - intros [= <-]. eapply reach_trans; [exact H1|]. apply reach_prim. constructor.
    Qed.

    Lemma run_header_reach s s' : hooks_ok P s -> Inv s -> run_header r s = Some s' -> reaches s s'.
    Proof.
      intros Hh Hi. unfold run_header.
      destruct (h_head (t_hook s)) as [p|] eqn:E1; [|intros [= <-]; now apply reach_refl].
      destruct (call_hook _ _ _) as [s2|] eqn:E; [|discriminate]. intros [= <-].
      eapply reach_trans; [apply (reach_prim _ _ (PInH core_font asm P V true s)); assumption|]. intros Hh1 Hi1.
      eapply reach_trans; [apply (reach_prim _ _ (PLogH core_font asm P V (on_hook (sh_inh true) s))); assumption|]. intros Hh2 Hi2.
      eapply reach_trans; [eapply call_hook_reach; [|exact Hh2|exact Hi2|exact E]; destruct Hh as (K & _); apply K; exact E1|]. intros Hh3 Hi3.
      eapply reach_trans; [apply (reach_prim _ _ (PInH core_font asm P V false s2)); assumption|].
      cbn zeta. destruct (h_home _); [|apply reach_refl]. apply reach_prim. constructor.
    Qed.

    Lemma leave_page_reach s s' : hooks_ok P s -> Inv s -> leave_page r s = Some s' -> reaches s s'.
    Proof.
      intros Hh Hi. unfold leave_page. destruct (on_page s); [|intros [= <-]; now apply reach_refl].
      destruct (run_footer _ _ _) as [s1|] eqn:E; [|discriminate]. intros [= <-].
      eapply reach_trans; [eapply run_footer_reach; eauto|]. apply reach_prim. constructor.
    Qed.

    Lemma add_page_format_reach o w h s s' : hooks_ok P s -> Inv s -> add_page_format core_font r o w h s = Some s' -> reaches s s'.
    Proof.
      intros Hh Hi. unfold add_page_format. destruct (failed s) eqn:Ef; [intros [= <-]; now apply reach_refl|].
      pose proof (reach_prim _ _ (PStart core_font asm P V s Ef) Hh Hi) as H1. cbv zeta.
      set (s1 := start_page s) in *. clearbody s1.
      destruct (leave_page r s1) as [s2|] eqn:E2; [|discriminate].
      destruct H1 as (Hh1 & Hi1 & Hr1).
      pose proof (leave_page_reach _ _ Hh1 Hi1 E2) as H2.
      assert (H3 : reaches s2 (fst (open_page core_font (save_state s1) (begin_page o w h s2)))).
      { apply reach_prim; [|apply H2|apply H2]. constructor. now apply Hsave. }
      destruct (open_page _ _ _) as [s3 [|]]; cbn [fst] in H3.
      - destruct (run_header r s3) as [s4|] eqn:E4; [|discriminate]. intros [= <-].
        eapply reach_trans; [split; [exact Hh1|split; [exact Hi1|exact Hr1]]|]. intros _ _.
        eapply reach_trans; [exact H2|]. intros _ _.
        eapply reach_trans; [exact H3|]. intros Hh3 Hi3.
        eapply reach_trans; [eapply run_header_reach; eauto|].
        apply reach_prim. constructor. now apply Hsave.
      - intros [= <-].
        eapply reach_trans; [split; [exact Hh1|split; [exact Hi1|exact Hr1]]|]. intros _ _.
        eapply reach_trans; [exact H2|]. intros _ _. exact H3.
    Qed.

    Lemma add_page_reach s s' : hooks_ok P s -> Inv s -> add_page core_font r s = Some s' -> reaches s s'.
    Proof.
      intros Hh Hi. unfold add_page. destruct (failed s); [intros [= <-]; now apply reach_refl|].
      now apply add_page_format_reach.
    Qed.

    Lemma close_reach s s' : hooks_ok P s -> Inv s -> close core_font asm r s = Some s' -> reaches s s'.
    Proof.
      intros Hh Hi. unfold close. cbv zeta.
      set (s0 := if failed s then s else _).
      assert (H0 : reaches s s0).
      { unfold s0. destruct (failed s) eqn:Ef; [now apply reach_refl|].
        destruct (_ >? _); [apply reach_prim; auto; now constructor|].
        destruct (_ >? _); [apply reach_prim; auto; now constructor|]. now apply reach_refl. }
      clearbody s0.
      destruct (failed s0) eqn:Ef; [now intros [= <-]|].
      destruct (_ =? 3); [now intros [= <-]|].
      intros H. eapply reach_trans; [exact H0|]. clear s Hh Hi H0. intros Hh Hi.
      destruct (if on_page s0 then Some s0 else add_page core_font r s0) as [s1|] eqn:E1; [|discriminate].
      assert (H1 : reaches s0 s1).
      { destruct (on_page s0); [injection E1 as <-; now apply reach_refl|]. now apply add_page_reach. }
      destruct (negb (on_page s0) && failed s1); [now injection H as <-|].
      eapply reach_trans; [exact H1|]. intros Hh1 Hi1.
      destruct (run_footer r true s1) as [s2|] eqn:E2; [|discriminate].
      eapply reach_trans; [eapply run_footer_reach; eauto|]. intros Hh2 Hi2.
      eapply reach_trans; [apply (reach_prim _ _ (PEnd core_font asm P V s2)); auto|].
      apply reach_prim. apply PDoc; [reflexivity|exact H].
    Qed.

    Lemma output_reach w s s' : may_write P -> hooks_ok P s -> Inv s -> output core_font asm r w s = Some s' -> reaches s s'.
    Proof.
      intros Hm Hh Hi. unfold output. destruct (failed s); [intros [= <-]; now apply reach_refl|].
      destruct (if _ <? 3 then close core_font asm r s else Some s) as [s1|] eqn:E; [|discriminate].
      intros [= <-].
      assert (H1 : reaches s s1).
      { destruct (_ <? 3); [now apply close_reach|]. injection E as <-. now apply reach_refl. }
      eapply reach_trans; [exact H1|]. apply reach_prim. now apply PWrite.
    Qed.

    Lemma output_file_reach c w s s' : may_write P -> hooks_ok P s -> Inv s -> output_file core_font asm r c w s = Some s' -> reaches s s'.
    Proof.
      intros Hm Hh Hi. unfold output_file. destruct (failed s) eqn:Ef; [intros [= <-]; now apply reach_refl|].
      destruct c; [|now apply output_reach]. intros [= <-]. apply reach_prim; auto. now constructor.
    Qed.

    Lemma break_wanted_reach h s b s' : hooks_ok P s -> Inv s -> break_wanted r h s = Some (b, s') -> reaches s s'.
    Proof.
      intros Hh Hi. unfold break_wanted, accept_break. cbv zeta.
      destruct (_ && _ && _); [|intros [= <- <-]; now apply reach_refl].
      destruct (h_accept (t_hook s)) as [p|] eqn:E; [|intros [= <- <-]; now apply reach_refl].
      apply Hr; auto. destruct Hh as (_ & _ & _ & K). apply K; exact E.
    Qed.

    Lemma cell_break_reach h s s' b : hooks_ok P s -> Inv s -> cell_break core_font r h s = Some (s', b) -> reaches s s'.
    Proof.
      intros Hh Hi. unfold cell_break. destruct (break_wanted r h s) as [[[|] s1]|] eqn:E1; [| |discriminate].
      2: { intros [= <- _]. eapply break_wanted_reach; eauto. }
      pose proof (break_wanted_reach _ _ _ _ Hh Hi E1) as H1. cbv zeta.
      intros H. eapply reach_trans; [exact H1|]. clear H1. intros Hh1 Hi1.
      set (pos := nlt _ _ _) in *.
      set (s2 := if pos then emit _ _ else s1) in *.
      assert (H2 : reaches s1 s2).
      { unfold s2. destruct pos; [|now apply reach_refl]. apply reach_prim; auto. apply PTw0. }
      clearbody s2. eapply reach_trans; [exact H2|]. intros Hh2 Hi2.
      destruct (add_page_format _ _ _ _ _ _) as [s3|] eqn:E3; [|discriminate].
      pose proof (add_page_format_reach _ _ _ _ _ Hh2 Hi2 E3) as H3.
      destruct (failed s3); [now injection H as <- _|].
      eapply reach_trans; [exact H3|]. intros Hh3 Hi3.
      injection H as <- _.
      eapply reach_trans; [apply (reach_prim _ _ (PSetX core_font asm P V (x_x (t_geo s1)) s3)); auto|].
      destruct pos; [|apply reach_refl]. apply reach_prim. apply PTw.
    Qed.

    Lemma step_reach c s s' : okc P c -> hooks_ok P s -> Inv s -> step core_font asm r c s = Some s' -> reaches s s'.
    Proof.
      intros Hc Hh Hi. destruct (simple c) eqn:Es.
      { intros H. apply reach_prim; auto. eapply PCall; eauto. now rewrite <- (simple_step _ _ r). }
      destruct c; try discriminate Es; cbn [step].
      - now apply add_page_reach.
      - now apply add_page_format_reach.
      - now apply close_reach.
      - apply output_reach; auto. left. apply okc_self in Hc. eauto.
      - apply output_file_reach; auto. right. apply okc_self in Hc. eauto.
      - unfold cell_format. destruct (failed s) eqn:Ef; [intros [= <-]; now apply reach_refl|].
        destruct (beqb _ _); [intros [= <-]; apply reach_prim; auto; now constructor|].
        cbv zeta. destruct (cell_break _ _ _ _) as [[s1 [|]]|] eqn:E1; [| |discriminate].
        + intros [= <-]. eapply reach_trans; [eapply cell_break_reach; eauto|]. apply reach_prim. apply PCell.
        + intros [= <-]. eapply cell_break_reach; eauto.
      - unfold image_out. destruct (image_size _ _ _ _ _ _) as [w' h'].
        destruct flow; [|intros [= <-]; apply reach_prim; auto; apply PImage].
        destruct (break_wanted r h' s) as [[b s1]|] eqn:E1; [|discriminate].
        pose proof (break_wanted_reach _ _ _ _ Hh Hi E1) as H1.
        destruct (if b then _ else _) as [[s2 g]|] eqn:E2; [|discriminate].
        assert (H2 : reaches s1 s2).
        { destruct H1 as (Hh1 & Hi1 & _). destruct b; [|injection E2 as <- _; now apply reach_refl].
          cbv zeta in E2. destruct (add_page_format _ _ _ _ _ _) as [s3|] eqn:E3; [|discriminate].
          pose proof (add_page_format_reach _ _ _ _ _ Hh1 Hi1 E3) as H3.
          destruct (failed s3); injection E2 as <- _; [exact H3|].
          eapply reach_trans; [exact H3|]. apply reach_prim. apply PSetX. }
        intros H. eapply reach_trans; [exact H1|]. intros _ _.
        destruct g; injection H as <-; [|exact H2].
        eapply reach_trans; [exact H2|]. intros Hh2 Hi2.
        eapply reach_trans; [apply (reach_prim _ _ (PAddY core_font asm P V h' s2)); auto|].
        apply reach_prim. apply PImage.
    Qed.
  End Composite.

  Theorem exec_good n c s s' :
    okc P c -> hooks_ok P s -> Inv s -> exec core_font asm n c s = Some s' -> reaches s s'.
  Proof. apply exec_good_step. intros. eapply step_reach; eauto. Qed.
  Theorem run_good n p s b s' :
    okp P p -> hooks_ok P s -> Inv s -> run core_font asm n p s = Some (b, s') -> reaches s s'.
  Proof. apply run_good_step. intros. eapply step_reach; eauto. Qed.
End Induction.

Section Monotone.
  Context {A : arith} (P Q : call A -> Prop) (HPQ : forall c, P c -> Q c).
  Lemma okp_impl : forall p, okp P p -> okp Q p.
  Proof.
    fix IHp 1. intros [b|c k]; [intros; exact I|]. intros [H1 H2]. split; [|intros o; apply IHp, H2].
    clear k H2.
    destruct c; destruct H1 as [H1 H3]; (split; [now apply HPQ|]); try exact I.
    - destruct p as [p|]; [|exact I]. apply IHp, H3.
    - destruct p as [p|]; [|exact I]. apply IHp, H3.
    - destruct p as [p|]; [|exact I]. apply IHp, H3.
    - destruct p as [p|]; [|exact I]. intros b. apply IHp, H3.
    - apply IHp, H3.
  Qed.
End Monotone.
