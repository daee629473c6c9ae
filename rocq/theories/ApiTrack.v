(** What a reader tracks while going through the content of a page, against
    what the library tracks while writing it: a generic invariant. *)
From Verif Require Import Base ApiModel ApiProofs ApiErr ApiQuiet ApiTurn.
Local Open Scope list_scope.
Local Open Scope Z_scope.

Section Track.
  Context {A : arith} (core_font : bytes -> bytes -> fontdef + bytes)
    (asm : st A -> option (bytes * option error)).
  Implicit Types s : st A.

  (** the reader: states, one operator, the state at the top of a page *)
  Context {Q : Type} (stp : Q -> op A -> option Q) (q0 : Q).
  (** the writer: what it tracks, and its sanity condition *)
  Context (curf : nest -> Q) (okn : nest -> Prop).
  (** when a page is left or entered in a good state *)
  Context (turn_ok : Z -> option Z -> Prop).
  (** what the content is judged against: the layers defined in the end *)
  Context (goal : list (bytes * bool) -> Prop).
  (** the calls considered *)
  Context (P : call A -> Prop).

  Fixpoint trk (q : Q) (l : list (op A)) : option Q :=
    match l with
    | [] => Some q
    | o :: l => match stp q o with Some q => trk q l | None => None end
    end.
  Lemma trk_app q l1 l2 : trk q (l1 ++ l2) = match trk q l1 with Some q => trk q l2 | None => None end.
  Proof. revert q. induction l1 as [|o l1 IH]; intros q; cbn; [reflexivity|]. destruct (stp q o); auto. Qed.

  Definition plain_op (o : op A) : bool :=
    match o with Save | Restore | BeginOC _ | EndOC | Raw _ => false | _ => true end.

  Hypothesis Hplain : forall q o, plain_op o = true -> stp q o = Some q.
  Hypothesis Hblock : forall q l, forallb plain_op l = true -> trk q (Save :: l ++ [Restore]) = Some q.
  Hypothesis Hturn : forall n, okn n -> turn_ok (n_clip n + n_tran n) (n_layer n) -> curf n = q0.
  Hypothesis Hclip : forall n what args, okn n -> okn (sn_clip (n_clip n + 1) n) /\
    trk (curf n) [Save; Paint what args] = Some (curf (sn_clip (n_clip n + 1) n)).
  Hypothesis Hunclip : forall n, okn n -> n_clip n > 0 -> okn (sn_clip (n_clip n - 1) n) /\
    trk (curf n) [Restore] = Some (curf (sn_clip (n_clip n - 1) n)).
  Hypothesis Htran : forall n, okn n -> okn (sn_tran (n_tran n + 1) n) /\
    trk (curf n) [Save] = Some (curf (sn_tran (n_tran n + 1) n)).
  Hypothesis Huntran : forall n, okn n -> n_tran n > 0 -> okn (sn_tran (n_tran n - 1) n) /\
    trk (curf n) [Restore] = Some (curf (sn_tran (n_tran n - 1) n)).
  Hypothesis Hendl : forall n id, okn n -> n_layer n = Some id -> okn (sn_layer None n) /\
    trk (curf n) [EndOC] = Some (curf (sn_layer None n)).
  Hypothesis Hbegl : forall n id, okn n -> n_layer n = None -> 0 <= id < Z.of_nat (length (n_layers n)) ->
    okn (sn_layer (Some id) n) /\ (goal (n_layers n) -> trk (curf n) [BeginOC id] = Some (curf (sn_layer (Some id) n))).
  Hypothesis Hgoal : forall l x, goal (l ++ [x]) -> goal l.
  Hypothesis Haddl : forall n x, okn n -> okn (sn_layers (n_layers n ++ [x]) n) /\ curf (sn_layers (n_layers n ++ [x]) n) = curf n.
  Hypothesis Hround : forall args sty, P (RoundedRectExt args sty) -> forall q, trk q [Save; Paint sty args] = Some q.
  Hypothesis Hraw : forall b, ~ P (RawWriteStr b).

  Lemma trk_plain q l : forallb plain_op l = true -> trk q l = Some q.
  Proof.
    induction l as [|o l IH]; cbn; [reflexivity|]. intros H. apply andb_prop in H as [H1 H2]. rewrite Hplain by exact H1. auto.
  Qed.

  Definition turns_ok s : Prop := forall d ly, In (EvTurn d ly) (t_log s) -> turn_ok d ly.
  Definition current s (i : nat) : bool := (l_state (t_life s) =? 2) && Nat.eqb i (pageno s).
  Definition pages_ok s : Prop := forall i pg, nth_error (l_pages (t_life s)) i = Some pg ->
    trk q0 (p_ops pg) = Some (if current s i then curf (t_nest s) else q0).
  Definition tinv s : Prop := okn (t_nest s) /\ (turns_ok s -> goal (n_layers (t_nest s)) -> pages_ok s).

  Lemma t_same s s' : l_pages (t_life s') = l_pages (t_life s) -> l_state (t_life s') = l_state (t_life s) ->
    pageno s' = pageno s -> t_log s' = t_log s -> okn (t_nest s') -> curf (t_nest s') = curf (t_nest s) ->
    (goal (n_layers (t_nest s')) -> goal (n_layers (t_nest s))) -> tinv s -> tinv s'.
  Proof.
    intros E1 E2 E3 E4 E5 E6 E7 [H1 H2]. split; [exact E5|].
    unfold turns_ok, pages_ok, current in *. rewrite E1, E2, E3, E4, E6. intros HT HG. exact (H2 HT (E7 HG)).
  Qed.

  Lemma nth_upd_cases {B} n (u : B -> B) l i b : nth_error (upd n u l) i = Some b ->
    (i = n /\ exists a, nth_error l i = Some a /\ b = u a) \/ (i <> n /\ nth_error l i = Some b).
  Proof.
    intros H. destruct (Nat.eq_dec i n) as [->|N].
    - left. split; [reflexivity|]. destruct (nth_error l n) as [a|] eqn:E.
      + rewrite (nth_error_upd_eq _ _ _ _ E) in H. injection H as <-. eauto.
      + apply nth_error_None in E. assert (E' : nth_error (upd n u l) n = None) by (apply nth_error_None; now rewrite length_upd).
        congruence.
    - right. rewrite nth_error_upd in H by exact N. auto.
  Qed.

  Lemma t_emit l s s1 : t_life s1 = t_life s -> t_log s1 = t_log s -> okn (t_nest s1) ->
    n_layers (t_nest s1) = n_layers (t_nest s) ->
    (goal (n_layers (t_nest s)) -> trk (curf (t_nest s)) l = Some (curf (t_nest s1))) -> tinv s -> tinv (emit l s1).
  Proof.
    intros E1 E2 E3 E5 E4 [H1 H2]. split; [now rewrite emit_nest|].
    unfold turns_ok, pages_ok. rewrite emit_log, E2, emit_nest, E5. intros HT HG. specialize (H2 HT HG). specialize (E4 HG).
    intros i pg. unfold current. rewrite emit_state, emit_pageno. unfold pageno. rewrite E1. unfold emit. rewrite E1.
    destruct (l_state (t_life s) =? 2) eqn:E.
    - cbn. rewrite E1. intros H. apply nth_upd_cases in H as [[-> (a & Ha & ->)]|[N Ha]].
      + rewrite Nat.eqb_refl. cbn. rewrite trk_app. specialize (H2 _ _ Ha). unfold current, pageno in H2.
        rewrite E, Nat.eqb_refl in H2. cbn in H2. rewrite H2. exact E4.
      + apply Nat.eqb_neq in N. rewrite N. specialize (H2 _ _ Ha). unfold current, pageno in H2. rewrite E, N in H2. exact H2.
    - cbn. rewrite E1. intros Ha. specialize (H2 _ _ Ha). unfold current in H2. rewrite E in H2. exact H2.
  Qed.

  Lemma t_plain l s : forallb plain_op l = true -> tinv s -> tinv (emit l s).
  Proof. intros H Hi. apply (t_emit l s s); [reflexivity|reflexivity|apply Hi|reflexivity| |exact Hi]. intros _. now apply trk_plain. Qed.
  Lemma t_plain_eop l s : forallb plain_op l = true -> tinv s -> tinv (emit_on_page l s).
  Proof. intros. unfold emit_on_page. destruct (on_page s); auto using t_plain. Qed.
  Lemma t_block l s : forallb plain_op l = true -> tinv s -> tinv (emit (Save :: l ++ [Restore]) s).
  Proof. intros H Hi. apply (t_emit _ s s); [reflexivity|reflexivity|apply Hi|reflexivity| |exact Hi]. intros _. now apply Hblock. Qed.

  Lemma t_link a b c d e f s : tinv s -> tinv (new_link a b c d e f s).
  Proof.
    intros [H1 H2]. split; [exact H1|]. intros HT HG. specialize (H2 HT HG). intros i pg H.
    unfold new_link in H. cbn in H. apply nth_upd_cases in H as [[-> (p & Hp & ->)]|[N Hp]]; exact (H2 _ _ Hp).
  Qed.

  Lemma tk_gfx u s : tinv s -> tinv (on_gfx u s). Proof. exact (fun H => H). Qed.
  Lemma tk_fnt u s : tinv s -> tinv (on_fnt u s). Proof. exact (fun H => H). Qed.
  Lemma tk_geo u s : tinv s -> tinv (on_geo u s). Proof. exact (fun H => H). Qed.
  Lemma tk_hook u s : tinv s -> tinv (on_hook u s). Proof. exact (fun H => H). Qed.
  Lemma t_stlinks u s : tinv s -> tinv (st_links u s). Proof. exact (fun H => H). Qed.
  Lemma t_err e s : tinv s -> tinv (force_err e s). Proof. exact (fun H => H). Qed.
  Lemma t_clear s : tinv s -> tinv (on_life (sl_err None) s). Proof. exact (fun H => H). Qed.

  Ltac tr :=
    match goal with
    | H : tinv ?s |- tinv ?s => exact H
    | |- tinv (emit (Save :: ?l) _) => fail 1
    | |- tinv (emit _ _) => apply t_plain; [reflexivity|]; tr
    | |- tinv (emit_on_page _ _) => apply t_plain_eop; [reflexivity|]; tr
    | |- tinv (new_link _ _ _ _ _ _ _) => apply t_link; tr
    | |- tinv (on_gfx _ _) => apply tk_gfx; tr
    | |- tinv (on_fnt _ _) => apply tk_fnt; tr
    | |- tinv (on_geo _ _) => apply tk_geo; tr
    | |- tinv (on_hook _ _) => apply tk_hook; tr
    | |- tinv (st_links _ _) => apply t_stlinks; tr
    | |- tinv (force_err _ _) => apply t_err; tr
    | |- tinv (on_life (sl_err None) _) => apply t_clear; tr
    | |- tinv (match ?b with _ => _ end) => destruct b; tr
    end.

  Lemma t_set_font fam sty size s : tinv s -> tinv (set_font core_font fam sty size s).
  Proof. intros H. unfold set_font, select_font, add_font. cbv zeta. split_ifs; tr. Qed.

  Lemma t_turn s : tinv s -> tinv (turn s) /\ (turns_ok (turn s) -> curf (t_nest s) = q0).
  Proof.
    intros [H1 H2]. split.
    - split; [exact H1|]. intros HT HG. apply H2; [|exact HG]. intros d ly Hin. apply HT. cbn. apply in_or_app. now left.
    - intros HT. apply Hturn; [exact H1|]. apply HT. cbn. apply in_or_app. right. now left.
  Qed.

  Lemma t_event e s : tinv s -> tinv (log e s).
  Proof. intros [H1 H2]. split; [exact H1|]. intros HT HG. apply H2; [|exact HG]. intros d ly Hin. apply HT. cbn. apply in_or_app. now left. Qed.

  (** after a turn in a good state every page is as it should be at its end *)
  Lemma t_flat s s' : tinv s -> (turns_ok s' -> turns_ok (turn s)) ->
    (forall i pg, nth_error (l_pages (t_life s')) i = Some pg -> p_ops pg = [] \/ exists pg', nth_error (l_pages (t_life s)) i = Some pg' /\ p_ops pg' = p_ops pg) ->
    t_nest s' = t_nest s -> tinv s'.
  Proof.
    intros Hi H1 H2 H3. destruct (t_turn s Hi) as [[_ HT2] HT3]. split; [rewrite H3; apply Hi|].
    rewrite H3. intros HT HG. specialize (H1 HT). specialize (HT2 H1 HG). specialize (HT3 H1). intros i pg Hp. rewrite H3, HT3.
    assert (E : trk q0 (p_ops pg) = Some q0).
    { destruct (H2 _ _ Hp) as [->|(pg' & Hp' & <-)]; [reflexivity|]. rewrite (HT2 i pg') by exact Hp'.
      change (t_nest (turn s)) with (t_nest s). rewrite HT3. now destruct (current _ _). }
    rewrite E. now destruct (current _ _).
  Qed.

  Lemma t_setpage k s : tinv s -> tinv (on_life (sl_page k) (turn s)).
  Proof. intros Hi. apply (t_flat s); auto. intros i pg Hp. right. exists pg. auto. Qed.

  Lemma t_end_layer s : tinv s -> tinv (end_layer s).
  Proof.
    intros Hi. unfold end_layer. destruct (n_layer (t_nest s)) as [id|] eqn:E; [|exact Hi].
    destruct (Hendl _ _ (proj1 Hi) E) as [H1 H2].
    assert (G : tinv (emit [EndOC] (on_nest (sn_layer None) s))) by (apply (t_emit _ s); auto).
    replace (on_nest (sn_layer None) (emit [EndOC] s)) with (emit [EndOC] (on_nest (sn_layer None) s)); [exact G|].
    unfold emit. cbn. destruct (_ =? 2); reflexivity.
  Qed.

  Lemma t_end_page s : tinv s -> tinv (end_page s).
  Proof.
    intros Hi. unfold end_page. apply t_end_layer in Hi. apply (t_flat (end_layer s)); auto.
    intros i pg Hp. right. exists pg. auto.
  Qed.

  Lemma t_begin_page o w h s : tinv s -> tinv (begin_page o w h s).
  Proof.
    intros Hi. unfold begin_page. destruct (failed s); [exact Hi|]. cbv zeta. apply (t_flat s); auto.
    - unfold note_size. destruct (_ || _); auto.
    - assert (F : forall i pg, nth_error (l_pages (t_life s) ++ [mk_page [] [] None]) i = Some pg ->
        p_ops pg = [] \/ exists pg', nth_error (l_pages (t_life s)) i = Some pg' /\ p_ops pg' = p_ops pg).
      { intros i pg Hp. destruct (Nat.lt_ge_cases i (length (l_pages (t_life s)))) as [L|L].
        - rewrite nth_error_app1 in Hp by exact L. eauto.
        - rewrite nth_error_app2 in Hp by exact L. left. destruct (i - _)%nat as [|[|?]]; cbn in Hp; try discriminate. now injection Hp as <-. }
      intros i pg. unfold note_size. destruct (_ || _); [|apply F].
      cbn -[upd]. intros Hp. apply nth_upd_cases in Hp as [[-> (a & Ha & ->)]|[N Ha]]; [|now apply F].
      cbn. now apply F in Ha.
    - unfold note_size. destruct (_ || _); reflexivity.
  Qed.

  Lemma t_start_page s : tinv s -> tinv (start_page s).
  Proof.
    intros Hi. unfold start_page. cbv zeta. set (s1 := if Nat.eqb _ _ then s else _).
    assert (H : tinv s1) by (unfold s1; destruct (Nat.eqb _ _); [exact Hi|now apply t_setpage]). clearbody s1.
    destruct (Z.eqb_spec (l_state (t_life s1)) 0) as [E|_]; [|exact H].
    destruct H as [H1 H2]. split; [exact H1|]. intros HT HG i pg Hp. specialize (H2 HT HG _ _ Hp).
    unfold current in *. rewrite E in H2. exact H2.
  Qed.

  Lemma t_put_font v s : tinv s -> tinv (put_font core_font v s).
  Proof. intros. unfold put_font. destruct (v_fam v); [assumption|now apply t_set_font]. Qed.
  Lemma t_open_page v s : tinv s -> tinv (fst (open_page core_font v s)).
  Proof.
    intros Hi. unfold open_page. cbv zeta.
    assert (H : tinv (put_font core_font v (open_lines v s))).
    { apply t_put_font. unfold open_lines. cbv zeta. destruct (g_dash _); tr. }
    destruct (stops _ _); cbn; [exact H|]. unfold put_text, open_fill, open_draw. cbv zeta. split_ifs; tr.
  Qed.
  Lemma t_put_back v s : tinv s -> tinv (put_back core_font v s).
  Proof.
    intros Hi. unfold put_back. cbv zeta.
    assert (H : tinv (put_font core_font v (back_width v s))).
    { apply t_put_font. unfold back_width. destruct (neq _ _ _); tr. }
    destruct (stops _ _); cbn; [exact H|]. unfold put_text. apply tk_gfx.
    assert (H1 : tinv (back_draw v (put_font core_font v (back_width v s)))).
    { unfold back_draw. destruct (beqb _ _); tr. }
    unfold back_fill. destruct (beqb _ _); tr.
  Qed.

  Lemma t_transform a b c d e f s : tinv s -> tinv (transform a b c d e f s).
  Proof. intros. unfold transform, fail. split_ifs; tr. Qed.

  Lemma cm_of_plain m : plain_op (cm_of m) = true.
  Proof. unfold cm_of. split_ifs; reflexivity. Qed.

  Lemma cell_text_app w h txt align s : exists b l, forallb plain_op l = true /\
    cell_text w h txt align s = (if b : bool then Save :: l ++ [Restore] else l).
  Proof.
    unfold cell_text. cbv zeta. destruct (g_flag _).
    - exists true, [Fill (c_str (g_text (t_gfx s))); Show (nmul A (nadd A (x_x (t_geo s)) (cell_dx w txt align s)) (x_k (t_geo s)))
          (nmul A (nsub A (x_h (t_geo s)) (nadd A (nadd A (nadd A (x_y (t_geo s)) (cell_dy h align s)) (nmul A (ndiv A (ofZ A 5) (ofZ A 10)) h)) (nmul A (ndiv A (ofZ A 3) (ofZ A 10)) (f_size (t_fnt s))))) (x_k (t_geo s))) txt].
      split; reflexivity.
    - eexists false, _. split; [|reflexivity]. reflexivity.
  Qed.

  Lemma cell_box_plain w h border fill s : forallb plain_op (cell_box w h border fill s) = true.
  Proof. unfold cell_box. cbv zeta. rewrite forallb_app. split_ifs; reflexivity. Qed.

  Lemma t_cell w h txt border ln align fill l u s : tinv s -> tinv (cell_body w h txt border ln align fill l u s).
  Proof.
    intros Hi. unfold cell_body. cbv zeta.
    set (ww := if neq _ _ _ then _ else w).
    set (ops := _ ++ _).
    assert (Ho : forall q, trk q ops = Some q).
    { intros q. unfold ops. rewrite trk_app, trk_plain by apply cell_box_plain.
      destruct txt as [|t0 txt]; [reflexivity|].
      destruct (cell_text_app ww h (t0 :: txt) align s) as (b & m & Hm & ->). destruct b; [now apply Hblock|now apply trk_plain]. }
    clearbody ops.
    set (s1 := match txt with [] => s | _ :: _ => _ end).
    assert (H : tinv s1) by (unfold s1; destruct txt; [exact Hi|]; destruct (_ || _); tr).
    clearbody s1.
    assert (H2 : tinv (match ops with [] => s1 | _ => emit ops s1 end)).
    { destruct ops; [exact H|]. apply (t_emit _ s1 s1); auto. apply H. }
    destruct (ln >? 0); tr.
  Qed.
  Lemma t_image id x y w h negx l u s : tinv s -> tinv (image_place id x y w h negx l u s).
  Proof.
    intros Hi. unfold image_place. cbv zeta.
    set (xx := if negx then x else _). clearbody xx.
    assert (H : forall a b, tinv (emit [Save; a; b; Restore] s) \/ plain_op a = false \/ plain_op b = false).
    { intros a b. destruct (plain_op a) eqn:E1; [|now right; left]. destruct (plain_op b) eqn:E2; [|now right; right].
      left. apply (t_block [a; b]); [cbn; now rewrite E1, E2|exact Hi]. }
    match goal with |- context [emit [Save; ?a; ?b; Restore] s] => destruct (H a b) as [H1|[H1|H1]]; try discriminate H1 end.
    destruct (_ || _); tr.
  Qed.

  Lemma t_text x y txt s : tinv s -> tinv (text_at x y txt s).
  Proof.
    intros Hi. unfold text_at. cbv zeta. destruct (g_flag _); [|tr].
    match goal with |- context [Save :: ?a :: [?b] ++ [Restore]] => apply (t_block [a; b]); [reflexivity|exact Hi] end.
  Qed.

  Lemma t_simple c s s' : simple c = true -> P c -> step core_font asm no_runner c s = Some s' -> tinv s -> tinv s'.
  Proof.
    intros H1 HP. destruct c; try discriminate H1; clear H1; cbn [step]; intros HH Hi; try (injection HH as <-);
      try (apply t_set_font; exact Hi); try (apply t_text; exact Hi);
      try solve [unfold transform_scale, transform_rotate, transform_skew, transform_translate; cbv zeta;
                 split_ifs; try apply t_transform; tr];
      try solve [open_simple; try destruct (failed s); split_ifs; tr].
    - (* SetPage *) split_ifs; [now apply t_setpage|exact Hi].
    - (* DrawRotated *) apply (t_block [cm_of m; Paint what args]); [cbn; now rewrite cm_of_plain|exact Hi].
    - (* RoundedRectExt *) apply (t_emit _ s s); auto; apply Hi.
    - (* Gradient *) apply (t_block [Paint _ args; cm_of args; Paint _ args]); [cbn; now rewrite cm_of_plain|exact Hi].
    - (* UseTemplate *) unfold fail. split_ifs; try tr. apply (t_block [cm_of m; Paint _ []]); [cbn; now rewrite cm_of_plain|exact Hi].
    - (* ClipBegin *) unfold clip_begin. destruct (Hclip _ what args (proj1 Hi)). apply (t_emit _ s); auto.
    - (* ClipEnd *) unfold clip_end. destruct (failed s); [exact Hi|]. destruct (_ >? _) eqn:E; [|tr].
      destruct (Hunclip _ (proj1 Hi)); [lia|]. apply (t_emit _ s); auto.
    - (* TransformBegin *) unfold transform_begin. destruct (Htran _ (proj1 Hi)). apply (t_emit _ s); auto.
    - (* TransformEnd *) unfold transform_end. destruct (_ >? _) eqn:E; [|tr].
      destruct (Huntran _ (proj1 Hi)); [lia|]. apply (t_emit _ s); auto.
    - (* AddLayer *) unfold add_layer. destruct (Haddl _ (nm, v) (proj1 Hi)). apply (t_same s); auto. apply Hgoal.
    - (* BeginLayer *) unfold begin_layer. pose proof (t_end_layer _ Hi) as He. cbv zeta.
      assert (En : n_layer (t_nest (end_layer s)) = None) by (unfold end_layer; destruct (n_layer (t_nest s)) eqn:E; [reflexivity|exact E]).
      set (s1 := end_layer s) in *. clearbody s1. destruct (_ && _) eqn:E; [|exact He].
      apply andb_prop in E as [E1 E2]. destruct (Hbegl _ id (proj1 He) En) as [G1 G2]; [lia|].
      assert (G : tinv (emit [BeginOC id] (on_nest (sn_layer (Some id)) s1))) by (apply (t_emit _ s1); auto).
      replace (on_nest (sn_layer (Some id)) (emit [BeginOC id] s1)) with (emit [BeginOC id] (on_nest (sn_layer (Some id)) s1)); [exact G|].
      unfold emit. cbn. destruct (_ =? 2); reflexivity.
    - (* EndLayer *) now apply t_end_layer.
    - (* SetLink *) revert HH. unfold set_link. cbv zeta. destruct (_ && _); [|discriminate]. intros [= <-]. tr.
    - (* RawWriteStr *) now destruct (Hraw b).
  Qed.

  Lemma t_prim s s' : prim core_font asm P (fun _ => True) s s' -> tinv s -> tinv s'.
  Proof.
    intros H Hi. destruct H; try exact Hi.
    - eapply t_simple; eauto. now apply okc_self in H0.
    - now apply t_event.
    - now apply t_event.
    - now apply t_end_page.
    - now apply t_start_page.
    - apply t_open_page. now apply t_begin_page.
    - now apply t_put_back.
    - destruct Hi as [I1 I2]. unfold end_doc in H0. destruct (failed s); [injection H0 as <-; split; auto|].
      destruct (asm s) as [[b [e|]]|]; [| |discriminate]; injection H0 as <-; (split; [exact I1|]; intros HT HG i pg Hp; specialize (I2 HT HG _ _ Hp));
        unfold current in *; rewrite H in I2; cbn in *; rewrite ?H; exact I2.
    - destruct w as [|m e]; cbn [write_to].
      + change (tinv (log (EvWrote (l_buf (t_life s))) s)). now apply t_event.
      + change (tinv (log (EvWrote (firstn m (l_buf (t_life s)))) s)). now apply t_event.
    - tr.
    - tr.
    - now apply t_cell.
    - now apply t_image.
  Qed.

  Theorem t_run n p s b s' : okp P p -> hooks_ok P s -> tinv s -> run core_font asm n p s = Some (b, s') -> tinv s'.
  Proof.
    intros Hp Hh Hi H. enough (R : reaches P tinv (fun _ _ => True) s s') by apply R.
    eapply (run_good core_font asm P tinv (fun _ _ => True) (fun _ => True)); eauto.
    intros s0 s1 HP _ Hi0. split; [eapply t_prim; eauto|exact I].
  Qed.
End Track.
