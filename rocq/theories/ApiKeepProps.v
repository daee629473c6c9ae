(** C23: a page break does not change the drawing state. *)
From Verif Require Import Base TextModel ApiModel ApiProofs ApiErr ApiQuiet ApiTurn ApiInst ApiKeep ApiSync ApiNestProps.
From Coq Require Import String.
Local Open Scope string_scope.
Local Open Scope list_scope.
Local Open Scope Z_scope.

(** ** Specification: what the next drawing operation sees *)
Section Spec.
  Context {A : arith}.
  (** colors, as the operators they are set with (the text color in full), and
      the line width *)
  Definition same_ink (s s' : st A) : Prop :=
    c_str (g_draw (t_gfx s')) = c_str (g_draw (t_gfx s)) /\
    c_str (g_fill (t_gfx s')) = c_str (g_fill (t_gfx s)) /\
    g_text (t_gfx s') = g_text (t_gfx s) /\ g_flag (t_gfx s') = g_flag (t_gfx s) /\
    (g_lw (t_gfx s') = g_lw (t_gfx s) \/ neq A (g_lw (t_gfx s')) (g_lw (t_gfx s)) = true).
  (** the font: family, style, underline, strike-out, size, and the font itself *)
  Definition same_font (s s' : st A) : Prop :=
    f_fam (t_fnt s') = f_fam (t_fnt s) /\ f_style (t_fnt s') = f_style (t_fnt s) /\
    f_ul (t_fnt s') = f_ul (t_fnt s) /\ f_so (t_fnt s') = f_so (t_fnt s) /\
    f_pt (t_fnt s') = f_pt (t_fnt s) /\ f_cur (t_fnt s') = f_cur (t_fnt s) /\
    (f_size (t_fnt s') = f_size (t_fnt s) \/ f_size (t_fnt s') = ndiv A (f_pt (t_fnt s)) (x_k (t_geo s))).
  (** a font has been selected, and its size is not zero *)
  Definition has_font (s : st A) : Prop := f_fam (t_fnt s) <> [] /\ neq A (f_pt (t_fnt s)) (ofZ A 0) = false.
End Spec.

Section Props.
  Context {A : arith} (core_font : bytes -> bytes -> fontdef + bytes)
    (asm : st A -> option (bytes * option error)).
  Implicit Types s : st A.

  (** the registered functions, whatever they do, keep the font table *)
  Definition keeps_fonts (r : @runner A) : Prop := forall p s b s', font_ok (t_fnt s) -> r p s = Some (b, s') -> fstep s s'.

  Lemma footer_fs r last s s' : keeps_fonts r -> font_ok (t_fnt s) -> run_footer r last s = Some s' -> fstep s s'.
  Proof.
    intros Hr Hi. unfold run_footer. cbv zeta.
    assert (H : forall p (e : event), call_hook r p (log e (on_hook (sh_inf true) s)) = None \/
      exists s1, call_hook r p (log e (on_hook (sh_inf true) s)) = Some s1 /\ fstep s s1).
    { intros p e. unfold call_hook. destruct (r p _) as [[b s1]|] eqn:E; [|now left]. right. exists s1. split; [reflexivity|].
      exact (Hr p (log e (on_hook (sh_inf true) s)) b s1 Hi E). }
    destruct (h_foot _) as [p|]; [|destruct (h_footl _) as [p|]; [|intros [= <-]; exact (fs_refl s)]].
    - match goal with |- context [call_hook r p (log ?e _)] => destruct (H p e) as [->|(s1 & -> & H1)] end; [discriminate|]. intros [= <-]. exact H1.
    - match goal with |- context [call_hook r (p last) (log ?e _)] => destruct (H (p last) e) as [->|(s1 & -> & H1)] end; [discriminate|]. intros [= <-]. exact H1.
  Qed.
  Lemma header_fs r s s' : keeps_fonts r -> font_ok (t_fnt s) -> run_header r s = Some s' -> fstep s s'.
  Proof.
    intros Hr Hi. unfold run_header. destruct (h_head _) as [p|]; [|intros [= <-]; apply fs_refl].
    unfold call_hook. destruct (r p _) as [[b s1]|] eqn:E; [|discriminate]. cbn. intros [= <-].
    pose proof (Hr p (log (EvHeader (pageno s)) (on_hook (sh_inh true) s)) b s1 Hi E) as H. destruct (h_home _); exact H.
  Qed.

  Lemma start_page_same s : t_fnt (start_page s) = t_fnt s /\ t_gfx (start_page s) = t_gfx s /\ t_geo (start_page s) = t_geo s.
  Proof. unfold start_page. cbv zeta. split_ifs; repeat split. Qed.

  Lemma stops_false v s : stops v s = false -> failed s = false \/ v_fam v = [].
  Proof. unfold stops. destruct (v_fam v); [now right|]. left. exact H. Qed.

  Lemma put_font_gfx v s : t_gfx (put_font core_font v s) = t_gfx s.
  Proof.
    unfold put_font. destruct (v_fam v); [reflexivity|]. unfold set_font, select_font, add_font. cbv zeta.
    split_ifs; rewrite ?eop_gfx; reflexivity.
  Qed.
  Lemma put_font_failed_before v s : failed s = true -> failed (put_font core_font v s) = true.
  Proof. intros H. now rewrite put_font_failed. Qed.

  (** what put_back leaves *)
  Lemma put_back_ink v s0 s : v = save_state s0 -> failed (put_back core_font v s) = false -> same_ink s0 (put_back core_font v s).
  Proof.
    intros -> Hf. unfold put_back in *. cbv zeta in *.
    set (v := save_state s0) in *.
    destruct (stops v _) eqn:Es; [unfold stops in Es; apply andb_prop in Es as [_ Es]; congruence|].
    set (s2 := put_font core_font v (back_width v s)) in *.
    assert (Eg : t_gfx s2 = t_gfx (back_width v s)) by apply put_font_gfx. clearbody s2.
    assert (Lw : g_lw (t_gfx s2) = g_lw (t_gfx s0) \/ neq A (g_lw (t_gfx s2)) (g_lw (t_gfx s0)) = true).
    { rewrite Eg. unfold back_width. destruct (neq A (g_lw (t_gfx s)) (v_lw v)) eqn:E; [now right|]. left. now rewrite emit_gfx. }
    unfold same_ink, put_text. cbn [on_gfx st_gfx t_gfx sg_flag sg_text g_text g_flag g_draw g_fill g_lw].
    assert (D : c_str (g_draw (t_gfx (back_draw v s2))) = c_str (g_draw (t_gfx s0)) /\ g_lw (t_gfx (back_draw v s2)) = g_lw (t_gfx s2)).
    { unfold back_draw. destruct (beqb _ _) eqn:E; [apply beqb_eq in E; split; [exact E|reflexivity]|]. rewrite emit_gfx. split; reflexivity. }
    destruct D as [D1 D2]. set (s3 := back_draw v s2) in *. clearbody s3.
    unfold back_fill. destruct (beqb (c_str (g_fill (t_gfx s3))) _) eqn:E; [apply beqb_eq in E|]; rewrite ?emit_gfx; cbn; rewrite ?D1, ?D2; auto.
  Qed.

  Lemma put_back_font v s0 s : v = save_state s0 -> failed (put_back core_font v s) = false -> has_font s0 -> font_ok (t_fnt s0) ->
    font_ok (t_fnt s) -> grows (t_fnt s0) (t_fnt s) -> x_k (t_geo s) = x_k (t_geo s0) -> same_font s0 (put_back core_font v s).
  Proof.
    intros Ev Hf [Hn Hp] H0 Hs Hg Hk. unfold put_back in *. cbv zeta in *.
    set (s1 := back_width v s) in *.
    assert (E1 : t_fnt s1 = t_fnt s /\ t_geo s1 = t_geo s).
    { unfold s1, back_width. destruct (neq A (g_lw (t_gfx s)) _); rewrite ?emit_fnt, ?emit_geo; split; reflexivity. }
    destruct E1 as [E1 E2]. clearbody s1.
    assert (Hf1 : failed s1 = false).
    { destruct (failed s1) eqn:E; [|reflexivity]. rewrite (put_font_failed _ _ _ E) in Hf.
      unfold stops in Hf. rewrite E in Hf. rewrite Ev in Hf. cbn [v_fam save_state] in Hf.
      destruct (f_fam (t_fnt s0)); [contradiction|]. cbn in Hf. congruence. }
    rewrite <- E1 in Hg.
    pose proof (put_font_back core_font v s0 s1 Ev Hf1 Hn H0 Hp Hg) as (P1 & P2 & P3 & P4 & P5 & P6 & P7).
    rewrite E2, Hk in P7.
    set (s2 := put_font core_font v s1) in *. clearbody s2.
    destruct (stops v s2) eqn:Es; [unfold stops in Es; apply andb_prop in Es as [_ Es]; congruence|].
    assert (E3 : t_fnt (put_text v (back_fill v (back_draw v s2))) = t_fnt s2).
    { unfold put_text. cbn [on_gfx st_gfx t_fnt]. unfold back_fill. destruct (beqb _ _); rewrite ?emit_fnt; cbn [on_gfx st_gfx t_fnt];
        unfold back_draw; destruct (beqb _ _); rewrite ?emit_fnt; reflexivity. }
    unfold same_font. rewrite E3. repeat split; auto.
  Qed.

  Lemma break_keeps r o w h s s' : keeps_fonts r -> font_ok (t_fnt s) -> add_page_format core_font r o w h s = Some s' ->
    failed s' = false -> same_ink s s' /\ (has_font s -> same_font s s') /\ fstep s s'.
  Proof.
    intros Hr Hi. unfold add_page_format. destruct (failed s) eqn:Hf0; [intros [= <-]; congruence|]. cbv zeta.
    destruct (start_page_same s) as (S1 & S2 & S3).
    assert (Ev : save_state (start_page s) = save_state s) by (unfold save_state; now rewrite S1, S2).
    rewrite Ev. set (s1 := start_page s) in *.
    assert (F1 : fstep s s1) by (apply fs_same; [congruence| |congruence]; unfold s1, count, start_page; cbv zeta; split_ifs; reflexivity).
    assert (I1 : font_ok (t_fnt s1)) by congruence. clearbody s1.
    destruct (leave_page r s1) as [s2|] eqn:E2; [|discriminate].
    assert (F2 : fstep s1 s2).
    { unfold leave_page in E2. destruct (on_page s1); [|injection E2 as <-; apply fs_refl].
      destruct (run_footer r false s1) as [s2'|] eqn:E; [|discriminate]. injection E2 as <-.
      eapply (fs_trans s1 s2'); [exact (footer_fs r false s1 s2' Hr I1 E)|]. apply end_page_fs. }
    assert (I2 : font_ok (t_fnt s2)) by (eapply font_ok_step; eauto).
    assert (F3 : fstep s2 (begin_page o w h s2)) by apply begin_page_fs.
    assert (I3 : font_ok (t_fnt (begin_page o w h s2))) by (eapply font_ok_step; eauto).
    set (v := save_state s) in *.
    pose proof (open_page_fs core_font v _ I3) as F4.
    set (s3 := begin_page o w h s2) in *. clearbody s3.
    destruct (open_page core_font v s3) as [s4 [|]] eqn:E4; cbn [fst] in F4.
    - destruct (run_header r s4) as [s5|] eqn:E5; [|discriminate]. intros [= <-] Hf.
      assert (I4 : font_ok (t_fnt s4)) by (eapply font_ok_step; eauto).
      pose proof (header_fs _ _ _ Hr I4 E5) as F5.
      assert (I5 : font_ok (t_fnt s5)) by (eapply font_ok_step; eauto).
      assert (F : fstep s s5).
      { eapply fs_trans; [exact F1|]. eapply fs_trans; [exact F2|]. eapply fs_trans; [exact F3|]. eapply fs_trans; [exact F4|]. exact F5. }
      split; [now apply put_back_ink|]. split.
      + intros Hh. apply put_back_font; auto; apply F.
      + eapply fs_trans; [exact F|]. now apply put_back_fs.
    - intros [= <-] Hf. exfalso. revert E4. unfold open_page. cbv zeta. destruct (stops _ _) eqn:Es; [|discriminate].
      intros [= <-]. unfold stops in Es. apply andb_prop in Es as [_ Es]. congruence.
  Qed.

  Lemma init_font_ok k o w h m : font_ok (t_fnt (init (A := A) k o w h m)).
  Proof. unfold init. destruct (if beqb o (bs "P") then (w, h) else (h, w)). now left. Qed.

  (** C23, first part.  In whatever state a program has brought the document, and
      whatever the header and footer functions do (for an automatic break: with
      the default page break function), once AddPage, AddPageFormat, or the
      automatic break of a cell or of an image has ended without error,
      colors and line width are those in force before, and so is the font if
      one was selected with a size other than zero (the size in user units may be recomputed from the size in points). *)
  Theorem C23_state_kept_partial n p k o w h m b s :
    run core_font asm n p (init (A := A) k o w h m) = Some (b, s) ->
    forall j c s', exec core_font asm j c s = Some s' -> failed s' = false ->
    match c with
    | AddPage | AddPageFormat _ _ _ => True
    | CellFormat _ _ _ _ _ _ _ _ _ | ImageOut _ _ _ _ _ _ _ _ _ _ _ _ => h_accept (t_hook s) = None
    | _ => False
    end ->
    same_ink s s' /\ (has_font s -> same_font s s').
  Proof.
    intros H j c s' HE Hf Hc.
    pose proof (run_fs _ _ _ _ _ _ _ (init_font_ok k o w h m) H) as F.
    assert (Hi : font_ok (t_fnt s)) by (eapply font_ok_step; [apply init_font_ok|exact F]).
    destruct j as [|j]; [discriminate|]. cbn [exec] in HE.
    assert (Hr : keeps_fonts (run_with (exec core_font asm j))).
    { intros q s1 b1 s2 H1 H2. eapply run_fs; eauto. }
    set (r := run_with _) in *. clearbody r.
    assert (same_self : same_ink s s) by (unfold same_ink; auto 10).
    assert (font_self : same_font s s) by (unfold same_font; auto 10).
    assert (carry : forall s1 s2, t_gfx s2 = t_gfx s1 -> t_fnt s2 = t_fnt s1 -> same_ink s s1 /\ (has_font s -> same_font s s1) ->
      same_ink s s2 /\ (has_font s -> same_font s s2)).
    { intros s1 s2 E1 E2. unfold same_ink, same_font. now rewrite E1, E2. }
    assert (carry0 : forall s0 s1, t_gfx s0 = t_gfx s -> t_fnt s0 = t_fnt s -> x_k (t_geo s0) = x_k (t_geo s) ->
      same_ink s0 s1 /\ (has_font s0 -> same_font s0 s1) -> same_ink s s1 /\ (has_font s -> same_font s s1)).
    { intros s0 s1 E1 E2 E3. unfold same_ink, same_font, has_font. now rewrite E1, E2, E3. }
    destruct c; try contradiction Hc; cbn [step] in HE.
    - unfold add_page in HE. destruct (failed s) eqn:Hf0; [injection HE as <-; congruence|].
      destruct (break_keeps _ _ _ _ _ _ Hr Hi HE Hf) as (G1 & G2 & _). auto.
    - destruct (break_keeps _ _ _ _ _ _ Hr Hi HE Hf) as (G1 & G2 & _). auto.
    - unfold cell_format in HE. destruct (failed s) eqn:Hf0; [injection HE as <-; congruence|].
      destruct (beqb _ []); [injection HE as <-; discriminate Hf|]. cbv zeta in HE.
      destruct (cell_break core_font r h0 s) as [[s1 [|]]|] eqn:E; [| |discriminate].
      + injection HE as <-.
        assert (EC : t_gfx (cell_body w0 h0 txt (upper border) ln align fill l u s1) = t_gfx s1 /\
          t_fnt (cell_body w0 h0 txt (upper border) ln align fill l u s1) = t_fnt s1 /\
          failed (cell_body w0 h0 txt (upper border) ln align fill l u s1) = failed s1).
        { unfold cell_body. cbv zeta. set (ops := _ ++ _). clearbody ops. set (s2 := match txt with [] => s1 | _ :: _ => _ end).
          assert (E2 : t_gfx s2 = t_gfx s1 /\ t_fnt s2 = t_fnt s1 /\ failed s2 = failed s1).
          { unfold s2. destruct txt; [auto|]. destruct (_ || _); auto. }
          destruct E2 as (E2 & E3 & E4). clearbody s2.
          destruct (ln >? 0); destruct ops; cbn [on_geo st_geo t_gfx t_fnt]; rewrite ?ox_failed, ?emit_gfx, ?emit_fnt, ?emit_failed; auto. }
        destruct EC as (EC1 & EC2 & EC3). rewrite EC3 in Hf.
        assert (G : same_ink s s1 /\ (has_font s -> same_font s s1)).
        { revert E. unfold cell_break, break_wanted, accept_break. rewrite Hc.
          destruct (_ && _ && _); [|intros [= <-]; auto]. destruct (x_auto _); [|intros [= <-]; auto]. cbv zeta.
          set (s2 := if nlt A _ _ then emit _ _ else s).
          assert (E2 : t_gfx s2 = t_gfx s /\ t_fnt s2 = t_fnt s /\ x_k (t_geo s2) = x_k (t_geo s)).
          { unfold s2. destruct (nlt _ _ _); rewrite ?emit_gfx, ?emit_fnt, ?emit_geo; auto. }
          destruct E2 as (E2 & E3 & E4). clearbody s2.
          destruct (add_page_format _ _ _ _ _ s2) as [s3|] eqn:E5; [|discriminate].
          destruct (failed s3) eqn:Hf3; [discriminate|].
          rewrite <- E3 in Hi. destruct (break_keeps _ _ _ _ _ _ Hr Hi E5 Hf3) as (G1 & G2 & _).
          destruct (carry0 s2 s3 E2 E3 E4 (conj G1 G2)) as [K1 K2].
          intros [= <-]. destruct (nlt A _ _); [|destruct (carry s3 (on_geo (sx_x (x_x (t_geo s))) s3) eq_refl eq_refl (conj K1 K2)); auto].
          edestruct (carry s3) as [L1 L2]; [| |exact (conj K1 K2)|split; [exact L1|intros; now apply L2]]; rewrite ?emit_gfx, ?emit_fnt; reflexivity. }
        unfold same_ink, same_font in *. rewrite EC1, EC2. exact G.
      + injection HE as <-. exfalso. revert E. unfold cell_break. destruct (break_wanted _ _ _) as [[[|] s2]|]; try discriminate. cbv zeta.
        destruct (add_page_format _ _ _ _ _ _) as [s3|]; [|discriminate]. destruct (failed s3) eqn:E; [|discriminate]. intros [= <-]. congruence.
    - unfold image_out in HE. destruct (image_size _ _ _ _ _ _) as [w1 h1].
      assert (EC : forall x1 y1 s1, t_gfx (image_place id x1 y1 w1 h1 negx l u s1) = t_gfx s1 /\ t_fnt (image_place id x1 y1 w1 h1 negx l u s1) = t_fnt s1 /\
        failed (image_place id x1 y1 w1 h1 negx l u s1) = failed s1).
      { intros. unfold image_place. cbv zeta. set (xx := if negx then x1 else _). clearbody xx. destruct (_ || _);
          rewrite ?nl_gfx, ?nl_fnt, ?nl_failed, ?emit_gfx, ?emit_fnt, ?emit_failed; auto. }
      destruct flow.
      2:{ injection HE as <-. destruct (EC x y s) as (E1 & E2 & _). unfold same_ink, same_font in *. rewrite E1, E2. auto. }
      destruct (break_wanted r h1 s) as [[b1 s1]|] eqn:E; [|discriminate].
      assert (Eq : s1 = s).
      { revert E. unfold break_wanted, accept_break. rewrite Hc. destruct (_ && _ && _); now intros [= _ <-]. }
      subst s1. destruct b1.
      + destruct (add_page_format _ _ _ _ _ s) as [s3|] eqn:E5; [|discriminate].
        destruct (failed s3) eqn:Hf3; [injection HE as <-; congruence|]. injection HE as <-.
        destruct (break_keeps _ _ _ _ _ _ Hr Hi E5 Hf3) as (G1 & G2 & _).
        destruct (EC x (x_y (t_geo s3)) (on_geo (fun g => sx_y (nadd A (x_y g) h1) g) (on_geo (sx_x (x_x (t_geo s))) s3))) as (K1 & K2 & _).
        unfold same_ink, same_font in *. cbn [on_geo st_geo t_geo sx_x x_y] in *. rewrite K1, K2. cbn. auto.
      + injection HE as <-. destruct (EC x (x_y (t_geo s)) (on_geo (fun g => sx_y (nadd A (x_y g) h1) g) s)) as (K1 & K2 & _).
        unfold same_ink, same_font in *. rewrite K1, K2. cbn. auto.
  Qed.

  Lemma pages_nonempty n p k o w h m b s : run core_font asm n p (init (A := A) k o w h m) = Some (b, s) -> (1 <= List.length (l_pages (t_life s)))%nat.
  Proof.
    intros H. pose proof (run_fs _ _ _ _ _ _ _ (init_font_ok k o w h m) H) as ((_ & F) & _).
    unfold count in F. revert F. unfold init. destruct (if beqb o (bs "P") then (w, h) else (h, w)). cbn. lia.
  Qed.

  Lemma footer_sync N r last s s' :
    (forall p s b s', okp flat p -> hooks_ok flat s -> sinv N s -> r p s = Some (b, s') -> both N s s' /\ hooks_ok flat s') ->
    hooks_ok flat s -> sinv N s -> run_footer r last s = Some s' -> both N s s' /\ hooks_ok flat s'.
  Proof.
    intros Hr Hh Hi. unfold run_footer. cbv zeta. pose proof Hh as (A1 & A2 & A3 & A4).
    assert (H : forall p (e : event) s1, okp flat p -> call_hook r p (log e (on_hook (sh_inf true) s)) = Some s1 -> both N s s1 /\ hooks_ok flat s1).
    { intros p e s1 Hp. unfold call_hook. destruct (r p _) as [[b s2]|] eqn:E; [|discriminate]. intros [= <-].
      apply (Hr _ _ _ _ Hp) in E; [exact E|exact Hh|exact Hi]. }
    change (t_hook (on_hook (sh_inf true) s)) with (sh_inf true (t_hook s)). cbn [sh_inf h_foot h_footl].
    destruct (h_foot (t_hook s)) as [p|] eqn:E1; [|destruct (h_footl (t_hook s)) as [p|] eqn:E2].
    - destruct (call_hook _ _ _) as [s1|] eqn:E; [|discriminate]. intros [= <-]. apply H in E as [E3 E4]; [|now apply A2]. split; [|exact E4].
      eapply y_trans; [exact E3|]. apply y_hook.
    - destruct (call_hook _ _ _) as [s1|] eqn:E; [|discriminate]. intros [= <-]. apply H in E as [E3 E4]; [|now apply A3]. split; [|exact E4].
      eapply y_trans; [exact E3|]. apply y_hook.
    - intros [= <-]. split; [exact (y_refl N s Hi)|exact Hh].
  Qed.
  Lemma header_sync N r s s' :
    (forall p s b s', okp flat p -> hooks_ok flat s -> sinv N s -> r p s = Some (b, s') -> both N s s' /\ hooks_ok flat s') ->
    hooks_ok flat s -> sinv N s -> run_header r s = Some s' -> both N s s' /\ hooks_ok flat s'.
  Proof.
    intros Hr Hh Hi. unfold run_header. cbv zeta. pose proof Hh as (A1 & A2 & A3 & A4).
    destruct (h_head (t_hook s)) as [p|] eqn:E1; [|intros [= <-]; split; [now apply y_refl|exact Hh]].
    unfold call_hook. destruct (r p _) as [[b s1]|] eqn:E; [|discriminate]. cbn [option_map snd].
    apply Hr in E as [E3 E4]; [|now apply A1|exact Hh|exact Hi]. intros [= <-].
    assert (E5 : both N s (on_hook (sh_inh false) s1)) by (eapply y_trans; [exact E3|]; apply y_hook).
    destruct (h_home _); [|split; [exact E5|exact E4]]. split; [|exact E4]. eapply y_trans; [exact E5|]. intros Hi5.
    now apply y_home.
  Qed.

  (** C23, second part.  The content of the new page re-establishes that state:
      whatever the state of the document (reached by any calls), after AddPage
      or AddPageFormat on a document with header and footer functions made of
      any calls but contexts, SetPage, ClearError and raw content, a reader
      of the page that has become the current one ends with the line width,
      the colors and the font of the document. *)
  Theorem C23_content_agrees_partial n p k o w h m b s :
    run core_font asm n p (init (A := A) k o w h m) = Some (b, s) -> hooks_ok flat s ->
    forall j o' w' h' s', exec core_font asm j (AddPageFormat o' w' h') s = Some s' -> failed s' = false -> l_state (t_life s') = 2 ->
    exists pg, nth_error (l_pages (t_life s')) (pageno s') = Some pg /\ (List.length (l_pages (t_life s)) <= pageno s')%nat /\
      let g := page_look (p_ops pg) in
      r_width g = Some (nmul A (g_lw (t_gfx s')) (x_k (t_geo s'))) /\
      r_stroke g = c_str (g_draw (t_gfx s')) /\ r_fill g = c_str (g_fill (t_gfx s')) /\
      (f_fam (t_fnt s') <> [] -> r_font g = Some (fd_id (f_cur (t_fnt s')), f_pt (t_fnt s'))).
  Proof.
    intros H Hh j o' w' h' s' HE Hf Hst.
    destruct j as [|j]; [discriminate|]. cbn [exec step] in HE.
    set (N := (List.length (l_pages (t_life s)) - 1)%nat).
    assert (Hr : forall p s b s', okp flat p -> hooks_ok flat s -> sinv N s -> run core_font asm j p s = Some (b, s') -> both N s s' /\ hooks_ok flat s').
    { intros. eapply y_run; eauto. }
    change (run_with (exec core_font asm j)) with (run core_font asm j) in HE. set (r := run core_font asm j) in *. clearbody r.
    assert (Hlen : (1 <= List.length (l_pages (t_life s)))%nat) by exact (pages_nonempty _ _ _ _ _ _ _ _ _ H).
    unfold add_page_format in HE. destruct (failed s) eqn:Hf0; [injection HE as <-; congruence|]. cbv zeta in HE.
    assert (Hh1 : hooks_ok flat (start_page s)) by (unfold hooks_ok; rewrite start_page_hook; exact Hh).
    assert (Hi1 : sinv N (start_page s) /\ failed (start_page s) = false /\ List.length (l_pages (t_life (start_page s))) = List.length (l_pages (t_life s))).
    { unfold start_page. cbv zeta. set (s1 := if Nat.eqb _ _ then s else _).
      assert (K : pageno s1 = N /\ l_pages (t_life s1) = l_pages (t_life s) /\ failed s1 = false).
      { unfold s1. destruct (Nat.eqb_spec (pageno s) (List.length (l_pages (t_life s)) - 1)); repeat split; auto. }
      destruct K as (K1 & K2 & K3). clearbody s1.
      assert (G : sinv N s1 /\ failed s1 = false /\ List.length (l_pages (t_life s1)) = List.length (l_pages (t_life s))).
      { unfold sinv, last. rewrite K2, K1. repeat split; auto; lia. }
      destruct (_ =? 0); [|exact G]. destruct G as [(G1 & G2 & G3 & G4) (G5 & G6)].
      split; [|split; [exact G5|exact G6]]. split; [exact G1|]. split; [exact G2|]. split; [exact G3|]. intros _ _ E. discriminate E. }
    destruct Hi1 as (Hi1 & Hf1 & Hl1). set (v := save_state (start_page s)) in *. set (s1 := start_page s) in *. clearbody s1 v.
    destruct (leave_page r s1) as [s2|] eqn:E2; [|discriminate].
    assert (F2 : both N s1 s2 /\ hooks_ok flat s2).
    { unfold leave_page in E2. destruct (on_page s1); [|injection E2 as <-; split; [now apply y_refl|exact Hh1]].
      destruct (run_footer r false s1) as [s2'|] eqn:E; [|discriminate]. injection E2 as <-.
      destruct (footer_sync N r false s1 s2' Hr Hh1 Hi1 E) as [F1 F2].
      split; [|unfold hooks_ok; rewrite end_page_hook; exact F2].
      eapply y_trans; [exact F1|]. intros Hi2. unfold end_page. eapply y_trans; [now apply y_end_layer|]. intros Hi3.
      apply y_state1; try reflexivity; auto. cbn. discriminate. }
    destruct F2 as ([Hi2 [R2 R2']] & Hh2).
    destruct (y_new N core_font asm v o' w' h' s2 Hi2) as [[Hi3 [R3 R3']] P3].
    set (s3 := fst (open_page core_font v (begin_page o' w' h' s2))) in *.
    assert (Hh3 : hooks_ok flat s3) by (unfold hooks_ok, s3; rewrite open_page_hook, begin_page_hook; exact Hh2).
    destruct (open_page core_font v (begin_page o' w' h' s2)) as [s3' [|]] eqn:E3; unfold s3 in *; clear s3; cbn [fst] in *; rename s3' into s3.
    - destruct (run_header r s3) as [s4|] eqn:E4; [|discriminate]. injection HE as <-.
      destruct (header_sync N r s3 s4 Hr Hh3 Hi3 E4) as [[Hi4 [R4 R4']] Hh4].
      destruct (y_put_back N core_font v s4 Hi4) as [(I1 & I2 & I3 & I4) [R5 R5']].
      set (s5 := put_back core_font v s4) in *. clearbody s5.
      assert (F4 : failed s4 = false) by (destruct (failed s4); [now rewrite R5' in Hf|reflexivity]).
      assert (F3 : failed s3 = false) by (destruct (failed s3); [now rewrite R4' in F4|reflexivity]).
      assert (F2 : failed s2 = false) by (destruct (failed s2); [now rewrite R3' in F3|reflexivity]).
      specialize (P3 F2). assert (NP : (N < pageno s5)%nat) by (destruct Hi2 as (_ & Q & _); lia).
      destruct (I4 NP Hf Hst) as (pg & g & G1 & G2 & G3). exists pg. split; [exact G1|]. split; [unfold N in NP; lia|].
      unfold page_look. rewrite G2. exact G3.
    - injection HE as <-. exfalso. revert E3. unfold open_page. cbv zeta. destruct (stops _ _) eqn:Es; [|discriminate].
      intros [= <-]. unfold stops in Es. apply andb_prop in Es as [_ Es]. congruence.
  Qed.
End Props.

(** ** Examples, and the full statement is false *)
Definition size_of (s : st arithZ) : Z := f_pt (t_fnt s).
Definition width_of (s : st arithZ) : Z := g_lw (t_gfx s).
Definition font_of (s : st arithZ) : bytes * bytes * bool * bool := (f_fam (t_fnt s), f_style (t_fnt s), f_ul (t_fnt s), f_so (t_fnt s)).
Definition colors_of (s : st arithZ) : bytes * bytes * bytes :=
  (c_str (g_draw (t_gfx s)), c_str (g_fill (t_gfx s)), c_str (g_text (t_gfx s))).

(** a header and a footer that change everything *)
Definition mess (n : Z) : list (call arithZ) :=
  [SetFont (A := arithZ) (bs "Times") (bs "I") (8 + n); SetLineWidth (A := arithZ) n; SetDrawColor n 0 0; SetFillColor 0 n 0; SetTextColor 0 0 n].
Definition keep_calls : list (call arithZ) :=
  [SetHeaderFunc (Some (calls (mess 3 ++ [Draw (bs "re f") []]))); SetFooterFunc (Some (calls (mess 5)));
   AddPage; SetFont (A := arithZ) (bs "Arial") (bs "bUs") 14; SetLineWidth (A := arithZ) 2; SetDrawColor 255 0 255; SetFillColor 0 255 255; SetTextColor 255 255 0].
Example C23_example :
  after (keep_calls ++ [AddPage]) (fun s => (failed s, l_state (t_life s), font_of s, size_of s, width_of s, colors_of s)) =
    Some (false, 2, (bs "helvetica", bs "B", true, true), 14, 2, (bs "1 0 1 RG", bs "0 1 1 rg", bs "1 1 0 rg")) /\
  after keep_calls (fun s => (neq arithZ (f_pt (t_fnt s)) 0, beqb (f_fam (t_fnt s)) [])) = Some (false, false).
Proof. split; vm_compute; reflexivity. Qed.
Lemma flat_hooks {A : arith} core_font asm n p k o w h m b s : okp flat p -> run core_font asm n p (init (A := A) k o w h m) = Some (b, s) -> hooks_ok flat s.
Proof.
  intros Hp H. refine (proj1 (run_good core_font asm flat (fun _ => True) (fun _ _ => True) (fun _ => True) _ _ _ _ n p _ b s Hp _ I H)); auto.
  apply no_hooks.
Qed.
Example C23_example_flat : okp flat (calls keep_calls).
Proof. unfold keep_calls, mess. cbn [app calls okp okc flat]. repeat (split; try exact I). Qed.

(** C23 in full is false: a font of size zero takes the size the footer left, *)
Theorem C23_zero_size_refuted :
  after [SetFooterFunc (Some (calls [SetFont (A := arithZ) (bs "Arial") [] 8])); AddPage; SetFont (A := arithZ) (bs "Arial") [] 12; SetFontSize (A := arithZ) 0]
    size_of = Some 0 /\
  after [SetFooterFunc (Some (calls [SetFont (A := arithZ) (bs "Arial") [] 8])); AddPage; SetFont (A := arithZ) (bs "Arial") [] 12; SetFontSize (A := arithZ) 0; AddPage]
    size_of = Some 8.
Proof. split; vm_compute; reflexivity. Qed.
(** a font the header selects stays selected if none was before, *)
Theorem C23_no_font_refuted :
  after [SetHeaderFunc (Some (calls [SetFont (A := arithZ) (bs "Arial") [] 8])); AddPage] font_of = Some (bs "helvetica", [], false, false).
Proof. vm_compute. reflexivity. Qed.
(** and the line style a header leaves is not put back, nor the transparency
    established on the new page. *)
Theorem C23_line_style_refuted :
  after [AddPage; SetHeaderFunc (Some (calls [SetLineCapStyle (bs "round")])); AddPage] (fun s => g_cap (t_gfx s)) = Some 1.
Proof. vm_compute. reflexivity. Qed.
Theorem C23_transparency_refuted :
  after [AddPage; SetAlpha (A := arithZ) 0 (bs "Normal"); AddPage]
    (fun s => ((g_alpha (t_gfx s) : Z), map (fun p => existsb (fun o => match o with Gs _ => true | _ => false end) (p_ops p)) (tl (l_pages (t_life s))))) =
  Some (0, [true; false]).
Proof. vm_compute. reflexivity. Qed.
(** What a header sets within a clipping context the page forgets at its end but
    the document does not: here the document has a line width of 7 again and
    does not put it back, while the page still has 1. *)
Theorem C23_content_refuted :
  after [AddPage; SetLineWidth (A := arithZ) 7; SetHeaderFunc (Some (calls [SetLineWidth (A := arithZ) 1; ClipBegin (bs "re W n") []; SetLineWidth (A := arithZ) 7; ClipEnd])); AddPage]
    (fun s => (width_of s, match nth_error (l_pages (t_life s)) 2 with Some p => (r_width (page_look (p_ops p)) : option Z) | None => None end)) =
  Some (7, Some 1).
Proof. vm_compute. reflexivity. Qed.

Print Assumptions C23_state_kept_partial.
Print Assumptions C23_content_agrees_partial.
