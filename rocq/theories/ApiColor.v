(** Colors: what selects them, the flag that text color and fill color differ,
    and the table of spot colors. *)
From Verif Require Import Base TextModel ApiModel ApiProofs ApiErr ApiQuiet ApiTurn ApiLife ApiKeep.
From Coq Require Import String.
Local Open Scope string_scope.
Local Open Scope list_scope.
Local Open Scope Z_scope.

Section Flag.
  Context {A : arith} (core_font : bytes -> bytes -> fontdef + bytes)
    (asm : st A -> option (bytes * option error)).
  Implicit Types s : st A.

  Definition differ (fill text : @color) : bool := negb (beqb (c_str fill) (c_str text)).
  Definition flag_ok s : Prop := g_flag (t_gfx s) = differ (g_fill (t_gfx s)) (g_text (t_gfx s)).
  Definition flag_saved (v : @saved A) : Prop := v_flag v = differ (v_fill v) (v_text v).
  Definition no_text_spot (c : call A) : Prop := match c with SetTextSpotColor _ _ => False | _ => True end.

  (** the graphics part as everything but drawing operators leaves it *)
  Lemma set_font_gfx fam sty size s : t_gfx (set_font core_font fam sty size s) = t_gfx s.
  Proof. unfold set_font, select_font, add_font, force_err. split_ifs; cbn; rewrite ?eop_gfx; reflexivity. Qed.
  Lemma put_font_gfx v s : t_gfx (put_font core_font v s) = t_gfx s.
  Proof. unfold put_font. destruct (v_fam v); [reflexivity|apply set_font_gfx]. Qed.
  Lemma open_lines_gfx v s : t_gfx (open_lines v s) = sg_lw (v_lw v) (t_gfx s).
  Proof. unfold open_lines. cbv zeta. destruct (g_dash _); rewrite ?emit_gfx; reflexivity. Qed.
  Lemma begin_page_gfx o w h s : t_gfx (begin_page o w h s) = t_gfx s.
  Proof. unfold begin_page. destruct (failed s); [reflexivity|]. cbv zeta. unfold note_size. cbv zeta. destruct (_ || _); reflexivity. Qed.
  Lemma end_page_gfx s : t_gfx (end_page s) = t_gfx s.
  Proof. unfold end_page, end_layer. destruct (n_layer _); cbn; rewrite ?emit_gfx; reflexivity. Qed.
  Lemma start_page_gfx s : t_gfx (start_page s) = t_gfx s.
  Proof. unfold start_page. cbv zeta. split_ifs; reflexivity. Qed.
  Lemma transform_gfx a b c d e f s : t_gfx (transform a b c d e f s) = t_gfx s.
  Proof. unfold transform, fail, force_err. destruct (_ >? _); [apply emit_gfx|]. destruct (failed s); reflexivity. Qed.
  Lemma image_place_gfx id x y w h negx l u s : t_gfx (image_place id x y w h negx l u s) = t_gfx s.
  Proof. unfold image_place. cbv zeta. destruct (_ || _); rewrite ?nl_gfx, ?emit_gfx; reflexivity. Qed.
  Lemma cell_gfx w h txt border ln align fill l u s : t_gfx (cell_body w h txt border ln align fill l u s) = t_gfx s.
  Proof.
    unfold cell_body. cbv zeta. set (w' := if neq A w _ then _ else w).
    set (ops := _ ++ _). set (s1 := match txt with [] => s | _ => _ end).
    assert (E : t_gfx s1 = t_gfx s) by (unfold s1; destruct txt; [reflexivity|]; destruct (_ || _); reflexivity).
    set (s2 := match ops with [] => s1 | _ => _ end).
    assert (E2 : t_gfx s2 = t_gfx s) by (unfold s2; destruct ops; [exact E|]; rewrite emit_gfx; exact E).
    clearbody s2. destruct (ln >? 0); exact E2.
  Qed.
  Lemma open_page_gfx v s : t_gfx (fst (open_page core_font v s)) =
    let g := sg_lw (v_lw v) (t_gfx s) in
    if snd (open_page core_font v s) then sg_flag (v_flag v) (sg_text (v_text v) (sg_fill (v_fill v) (sg_draw (v_draw v) g))) else g.
  Proof.
    unfold open_page. cbv zeta. destruct (stops _ _); cbn [fst snd]; [now rewrite put_font_gfx, open_lines_gfx|].
    unfold put_text, open_fill, open_draw. cbv zeta.
    repeat match goal with |- context [if ?b then _ else _] => destruct b end; cbn; rewrite ?emit_gfx; cbn; rewrite ?emit_gfx; cbn; rewrite put_font_gfx, open_lines_gfx; reflexivity.
  Qed.

  (** the colors, up to components: what the operators are *)
  Lemma put_back_gfx v s : exists g, t_gfx (put_back core_font v s) = g /\
    (g_flag g = g_flag (t_gfx s) /\ g_fill g = g_fill (t_gfx s) /\ g_text g = g_text (t_gfx s) \/
     g_flag g = v_flag v /\ c_str (g_fill g) = c_str (v_fill v) /\ g_text g = v_text v) /\
    g_spots g = g_spots (t_gfx s) /\ g_blends g = g_blends (t_gfx s).
  Proof.
    eexists. split; [reflexivity|]. unfold put_back. cbv zeta.
    assert (E : forall s1, s1 = put_font core_font v (back_width v s) -> g_flag (t_gfx s1) = g_flag (t_gfx s) /\ g_fill (t_gfx s1) = g_fill (t_gfx s) /\ g_text (t_gfx s1) = g_text (t_gfx s) /\ g_spots (t_gfx s1) = g_spots (t_gfx s) /\ g_blends (t_gfx s1) = g_blends (t_gfx s)).
    { intros s1 ->. rewrite put_font_gfx. unfold back_width. destruct (neq _ _ _); rewrite ?emit_gfx; repeat split. }
    destruct (E _ eq_refl) as (E1 & E2 & E3 & E4 & E5). clear E. set (s1 := put_font core_font v (back_width v s)) in *. clearbody s1.
    destruct (stops v s1); [rewrite E1, E2, E3, E4, E5; auto 10|].
    unfold put_text, back_fill, back_draw.
    destruct (beqb (c_str (g_draw (t_gfx s1))) (c_str (v_draw v))).
    - destruct (beqb (c_str (g_fill (t_gfx s1))) (c_str (v_fill v))) eqn:B.
      + apply beqb_eq in B. cbn. auto 10.
      + cbn. rewrite emit_gfx. cbn. auto 10.
    - match goal with |- context [if beqb ?x ?y then _ else _] => destruct (beqb x y) eqn:B end.
      + apply beqb_eq in B. cbn. rewrite emit_gfx. cbn. rewrite emit_gfx in B. auto 10.
      + cbn. rewrite emit_gfx. cbn. rewrite emit_gfx. cbn. auto 10.
  Qed.

  Lemma flag_same s s' : t_gfx s' = t_gfx s -> flag_ok s -> flag_ok s'.
  Proof. unfold flag_ok. now intros ->. Qed.

  Ltac gfx_simpl := repeat (first [rewrite eop_gfx | rewrite emit_gfx | rewrite nl_gfx | rewrite transform_gfx | progress cbn -[upd]]).
  Lemma simple_flag c s s' : simple c = true -> no_text_spot c -> step core_font asm no_runner c s = Some s' -> flag_ok s -> flag_ok s'.
  Proof.
    intros H1 HP H Hi. destruct c; try discriminate H1; try contradiction; clear H1; cbn [step] in H; try (injection H as <-); try exact Hi;
      try (revert H; unfold set_link; cbv zeta; destruct (_ && _); [|discriminate]; intros [= <-]; exact Hi);
      try solve [eapply flag_same; [|exact Hi]; open_simple; split_ifs; gfx_simpl; reflexivity];
      try (eapply flag_same; [|exact Hi]; apply set_font_gfx);
      unfold flag_ok, differ in *;
      try solve [open_simple; split_ifs; gfx_simpl; auto].
  Qed.

  Lemma prim_flag (P : call A -> Prop) s s' : (forall c, P c -> no_text_spot c) -> prim core_font asm P flag_saved s s' -> flag_ok s -> flag_ok s'.
  Proof.
    intros HP H Hi. destruct H; try exact Hi; try solve [eapply flag_same; [|exact Hi]; gfx_simpl; reflexivity].
    - eapply simple_flag; eauto. apply HP, (okc_self _ _ H0).
    - eapply flag_same; [apply end_page_gfx|exact Hi].
    - eapply flag_same; [apply start_page_gfx|exact Hi].
    - unfold flag_ok. rewrite open_page_gfx. cbv zeta. destruct (snd _); [exact H|]. cbn. rewrite begin_page_gfx. exact Hi.
    - destruct (put_back_gfx v s) as (g & E & [(E1 & E2 & E3)|(E1 & E2 & E3)] & _); unfold flag_ok; rewrite E.
      + rewrite E1, E2, E3. exact Hi.
      + rewrite E1. unfold differ. rewrite E2, E3. exact H.
    - unfold end_doc in H0. destruct (failed s); [injection H0 as <-; exact Hi|].
      destruct (asm s) as [[b [e|]]|]; [| |discriminate]; injection H0 as <-; exact Hi.
    - destruct w; exact Hi.
    - eapply flag_same; [apply cell_gfx|exact Hi].
    - eapply flag_same; [apply image_place_gfx|exact Hi].
  Qed.
  Lemma run_flag (P : call A -> Prop) n p s b s' : (forall c, P c -> no_text_spot c) -> okp P p -> hooks_ok P s -> flag_ok s -> run core_font asm n p s = Some (b, s') -> flag_ok s'.
  Proof.
    intros HP Hp Hh Hi H.
    destruct (run_good core_font asm P flag_ok (fun _ _ => True) flag_saved) with (n := n) (p := p) (s := s) (b := b) (s' := s')
      as (_ & Hi' & _); auto.
    intros s0 s1 Hp0 _ H0. split; [|exact I]. eapply prim_flag; eauto.
  Qed.

  (** ** spot colors: the table only grows, at its end *)
  Definition spots_ok s : Prop := forall i nm c, nth_error (g_spots (t_gfx s)) i = Some (nm, c) ->
    sp_id c = Z.of_nat i + 1 /\ assoc nm (g_spots (t_gfx s)) = Some c /\
    sp_c c <= 100 /\ sp_m c <= 100 /\ sp_y c <= 100 /\ sp_k c <= 100.
  Definition spots_grow s s' : Prop := exists l, g_spots (t_gfx s') = g_spots (t_gfx s) ++ l.

  Lemma sg_same s s' : g_spots (t_gfx s') = g_spots (t_gfx s) -> spots_ok s -> spots_ok s' /\ spots_grow s s'.
  Proof. intros E H. split; [unfold spots_ok; rewrite E; exact H|]. exists []. now rewrite E, app_nil_r. Qed.
  Lemma add_spot_ok nm c m y k s : spots_ok s -> spots_ok (add_spot nm c m y k s) /\ spots_grow s (add_spot nm c m y k s).
  Proof.
    intros Hi. unfold add_spot. destruct (failed s); [now apply sg_same|].
    destruct (assoc nm (g_spots (t_gfx s))) as [c0|] eqn:E; [now apply sg_same|].
    cbn. split; [|now eexists]. unfold spots_ok. cbn. intros i nm' c' Hn.
    destruct (Nat.lt_ge_cases i (List.length (g_spots (t_gfx s)))) as [L|L].
    - rewrite nth_error_app1 in Hn by exact L. destruct (Hi _ _ _ Hn) as (H1 & H2 & H3). split; [exact H1|]. split; [|exact H3].
      rewrite assoc_app, H2. reflexivity.
    - rewrite nth_error_app2 in Hn by exact L. destruct (i - List.length (g_spots (t_gfx s)))%nat as [|j] eqn:D; [|now destruct j].
      cbn in Hn. injection Hn as <- <-. cbn. replace i with (List.length (g_spots (t_gfx s))) by lia.
      split; [reflexivity|]. split; [rewrite assoc_app, E; cbn; now rewrite beqb_refl|].
      unfold byte_bound. repeat split; match goal with |- (if ?v >? 100 then _ else _) <= _ => destruct (Z.gtb_spec v 100); lia end.
  Qed.
  Lemma simple_spots c s s' : simple c = true -> step core_font asm no_runner c s = Some s' -> spots_ok s -> spots_ok s' /\ spots_grow s s'.
  Proof.
    intros H1 H Hi. destruct c; try discriminate H1; clear H1; cbn [step] in H; try (injection H as <-); try (now apply sg_same);
      try (revert H; unfold set_link; cbv zeta; destruct (_ && _); [|discriminate]; intros [= <-]; now apply sg_same);
      try (now apply add_spot_ok);
      try (apply sg_same; [|exact Hi]; now rewrite set_font_gfx);
      try solve [apply sg_same; [|exact Hi]; open_simple; split_ifs; gfx_simpl; reflexivity].
  Qed.
  Lemma prim_spots P V s s' : prim core_font asm P V s s' -> spots_ok s -> spots_ok s' /\ spots_grow s s'.
  Proof.
    intros H Hi. destruct H; try (now apply sg_same); try solve [apply sg_same; [|exact Hi]; gfx_simpl; reflexivity].
    - eapply simple_spots; eauto.
    - apply sg_same; [now rewrite end_page_gfx|exact Hi].
    - apply sg_same; [now rewrite start_page_gfx|exact Hi].
    - apply sg_same; [|exact Hi]. rewrite open_page_gfx. cbv zeta. destruct (snd _); cbn; now rewrite begin_page_gfx.
    - destruct (put_back_gfx v s) as (g & E & _ & E1 & _). apply sg_same; [|exact Hi]. now rewrite E.
    - unfold end_doc in H0. destruct (failed s); [injection H0 as <-; now apply sg_same|].
      destruct (asm s) as [[b [e|]]|]; [| |discriminate]; injection H0 as <-; now apply sg_same.
    - destruct w; now apply sg_same.
    - apply sg_same; [now rewrite cell_gfx|exact Hi].
    - apply sg_same; [now rewrite image_place_gfx|exact Hi].
  Qed.
  Lemma run_spots n p s b s' : spots_ok s -> run core_font asm n p s = Some (b, s') -> spots_ok s' /\ spots_grow s s'.
  Proof.
    intros Hi H.
    destruct (run_good core_font asm (fun _ => True) spots_ok spots_grow (fun _ => True)) with (n := n) (p := p) (s := s) (b := b) (s' := s')
      as (_ & Hi' & R); auto.
    - intros s0 _. exists []. now rewrite app_nil_r.
    - intros a c d [l1 E1] [l2 E2]. exists (l1 ++ l2). now rewrite E2, E1, app_assoc.
    - intros s0 s1 Hp _ H0. eapply prim_spots; eauto.
    - now apply any_calls.
    - now apply any_hooks.
  Qed.
  Lemma init_spots k o w h m : spots_ok (init (A := A) k o w h m).
  Proof. unfold spots_ok, init. destruct (beqb o _); intros [|i] nm c; discriminate. Qed.
End Flag.
