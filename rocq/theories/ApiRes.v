(** Page contents and link lists are append-only, and the graphics states and
    fonts they name are in the tables. *)
From Verif Require Import Base TextModel ApiModel ApiProofs ApiErr ApiQuiet ApiTurn ApiLife ApiTrack ApiKeep.
From Coq Require Import String.
Local Open Scope string_scope.
Local Open Scope list_scope.
Local Open Scope Z_scope.

Section Res.
  Context {A : arith} (core_font : bytes -> bytes -> fontdef + bytes)
    (asm : st A -> option (bytes * option error)).
  Implicit Types s : st A.

  (** an operator names a graphics state of the list of [nb], a font of the
      table (or no font at all) *)
  Definition okop (nb : nat) (T : list (bytes * fontdef)) (o : op A) : Prop :=
    match o with
    | Gs i => 1 <= i <= Z.of_nat nb
    | Tf id _ => id = [] \/ exists k fd, In (k, fd) T /\ fd_id fd = id
    | _ => True
    end.
  Definition nblends s : nat := List.length (g_blends (t_gfx s)).
  Definition okops s (l : list (op A)) : Prop := Forall (okop (nblends s) (f_table (t_fnt s))) l.
  Definition rinv s : Prop :=
    (forall i pg, nth_error (l_pages (t_life s)) i = Some pg -> okops s (p_ops pg)) /\
    ((fd_id (f_cur (t_fnt s)) = [] \/ exists k fd, In (k, fd) (f_table (t_fnt s)) /\ fd_id fd = fd_id (f_cur (t_fnt s))) /\
     NoDup (g_blends (t_gfx s))).
  Definition appended (a b : @page A) : Prop := (exists l, p_ops b = p_ops a ++ l) /\ (exists l, p_links b = p_links a ++ l).
  Definition grown s s' : Prop :=
    (exists l, g_blends (t_gfx s') = g_blends (t_gfx s) ++ l) /\
    (exists l, f_table (t_fnt s') = f_table (t_fnt s) ++ l) /\
    (forall i pg, nth_error (l_pages (t_life s)) i = Some pg -> exists pg', nth_error (l_pages (t_life s')) i = Some pg' /\ appended pg pg') /\
    (List.length (t_links s) <= List.length (t_links s'))%nat.

  Lemma appended_refl p : appended p p.
  Proof. split; exists []; now rewrite app_nil_r. Qed.
  Lemma appended_trans a b c : appended a b -> appended b c -> appended a c.
  Proof.
    intros [[l1 E1] [m1 F1]] [[l2 E2] [m2 F2]]. split; [exists (l1 ++ l2); now rewrite E2, E1, app_assoc|exists (m1 ++ m2); now rewrite F2, F1, app_assoc].
  Qed.
  Lemma grown_refl s : grown s s.
  Proof.
    repeat split; try (exists []; now rewrite app_nil_r); auto.
    intros i pg H. exists pg. split; [exact H|apply appended_refl].
  Qed.
  Lemma grown_trans a b c : grown a b -> grown b c -> grown a c.
  Proof.
    intros ((l1 & A1) & (l2 & A2) & A3 & A4) ((m1 & B1) & (m2 & B2) & B3 & B4). repeat split.
    - exists (l1 ++ m1). now rewrite B1, A1, app_assoc.
    - exists (l2 ++ m2). now rewrite B2, A2, app_assoc.
    - intros i pg H. destruct (A3 _ _ H) as (p1 & P1 & Q1). destruct (B3 _ _ P1) as (p2 & P2 & Q2). exists p2. split; [exact P2|]. eapply appended_trans; eauto.
    - lia.
  Qed.
  Definition good (s0 s : st A) : Prop := rinv s /\ grown s0 s.

  Lemma okop_mono nb T nb' T' o : (nb <= nb')%nat -> incl T T' -> okop nb T o -> okop nb' T' o.
  Proof.
    intros H1 H2. destruct o; cbn; auto; try lia.
    intros [->|(k & fd & H3 & H4)]; [now left|]. right. exists k, fd. auto.
  Qed.
  Lemma okops_mono s s' l : grown s s' -> okops s l -> okops s' l.
  Proof.
    intros ((l1 & E1) & (l2 & E2) & _) H. unfold okops, nblends in *. eapply Forall_impl; [|exact H]. intros o. apply okop_mono.
    - rewrite E1, app_length. lia.
    - rewrite E2. apply incl_appl, incl_refl.
  Qed.

  Lemma d_emit l s0 s : okops s l -> good s0 s -> good s0 (emit l s).
  Proof.
    intros Hl [[H1 H2] H3]. unfold good, rinv, okops, nblends. rewrite emit_fnt, emit_gfx. split; [split; [|exact H2]|].
    - intros i pg. unfold emit. destruct (l_state (t_life s) =? 2); [|apply H1].
      cbn -[upd]. intros Hp. apply nth_upd_cases in Hp as [[-> (a & Ha & ->)]|[N Ha]]; [|exact (H1 _ _ Ha)].
      cbn. apply Forall_app. split; [exact (H1 _ _ Ha)|exact Hl].
    - eapply grown_trans; [exact H3|]. unfold grown. rewrite emit_gfx, emit_fnt, emit_links.
      repeat split; try (exists []; now rewrite app_nil_r); auto.
      intros i pg Hp. unfold emit. destruct (l_state (t_life s) =? 2); [|exists pg; split; [exact Hp|apply appended_refl]].
      cbn -[upd]. destruct (Nat.eq_dec i (l_page (t_life s))) as [->|N].
      + rewrite (nth_error_upd_eq _ _ _ _ Hp). eexists. split; [reflexivity|]. split; [now exists l|exists []; cbn; now rewrite app_nil_r].
      + rewrite nth_error_upd by exact N. exists pg. split; [exact Hp|apply appended_refl].
  Qed.
  Lemma d_eop l s0 s : okops s l -> good s0 s -> good s0 (emit_on_page l s).
  Proof. intros. unfold emit_on_page. destruct (on_page s); [now apply d_emit|assumption]. Qed.
  Lemma d_link a b c d e f s0 s : good s0 s -> good s0 (new_link a b c d e f s).
  Proof.
    intros [[H1 H2] H3]. split; [split; [|exact H2]|].
    - intros i pg. unfold new_link. cbn -[upd]. intros Hp. apply nth_upd_cases in Hp as [[-> (p & Ha & ->)]|[N Ha]]; exact (H1 _ _ Ha).
    - eapply grown_trans; [exact H3|]. unfold grown, new_link. cbn -[upd].
      repeat split; try (exists []; now rewrite app_nil_r); auto.
      intros i pg Hp. destruct (Nat.eq_dec i (l_page (t_life s))) as [->|N].
      + rewrite (nth_error_upd_eq _ _ _ _ Hp). eexists. split; [reflexivity|]. split; [exists []; cbn; now rewrite app_nil_r|eexists; reflexivity].
      + rewrite nth_error_upd by exact N. exists pg. split; [exact Hp|apply appended_refl].
  Qed.
  (** anything that keeps pages, tables and the current font *)
  Lemma d_same s0 s s' : l_pages (t_life s') = l_pages (t_life s) -> g_blends (t_gfx s') = g_blends (t_gfx s) ->
    f_table (t_fnt s') = f_table (t_fnt s) -> f_cur (t_fnt s') = f_cur (t_fnt s) -> t_links s' = t_links s -> good s0 s -> good s0 s'.
  Proof.
    intros E1 E2 E3 E4 E5 [[H1 H2] H3]. unfold good, rinv, okops, nblends, grown in *. rewrite E1, E2, E3, E4, E5. auto.
  Qed.
  Lemma d_geo u s0 s : good s0 s -> good s0 (on_geo u s). Proof. exact (fun H => H). Qed.
  Lemma d_nest u s0 s : good s0 s -> good s0 (on_nest u s). Proof. exact (fun H => H). Qed.
  Lemma d_hook u s0 s : good s0 s -> good s0 (on_hook u s). Proof. exact (fun H => H). Qed.
  Lemma d_err e s0 s : good s0 s -> good s0 (force_err e s). Proof. exact (fun H => H). Qed.
  Lemma d_clear s0 s : good s0 s -> good s0 (on_life (sl_err None) s). Proof. exact (fun H => H). Qed.
  Lemma d_page k s0 s : good s0 s -> good s0 (on_life (sl_page k) s). Proof. exact (fun H => H). Qed.
  Lemma d_log e s0 s : good s0 s -> good s0 (log e s). Proof. exact (fun H => H). Qed.
  Lemma d_turn s0 s : good s0 s -> good s0 (turn s). Proof. exact (fun H => H). Qed.
  Lemma d_gfx u s0 s : g_blends (u (t_gfx s)) = g_blends (t_gfx s) -> good s0 s -> good s0 (on_gfx u s).
  Proof. intros E. now apply d_same. Qed.
  Lemma d_fnt u s0 s : f_table (u (t_fnt s)) = f_table (t_fnt s) -> f_cur (u (t_fnt s)) = f_cur (t_fnt s) -> good s0 s -> good s0 (on_fnt u s).
  Proof. intros E1 E2. now apply d_same. Qed.
  Lemma d_links v s0 s : (List.length (t_links s) <= List.length v)%nat -> good s0 s -> good s0 (st_links v s).
  Proof. intros E [H1 H3]. split; [exact H1|]. eapply grown_trans; [exact H3|]. destruct (grown_refl s) as (G1 & G2 & G3 & G4). split; [exact G1|]. split; [exact G2|]. split; [exact G3|exact E]. Qed.
  Lemma d_table k fd s0 s : good s0 s -> good s0 (on_fnt (fun x => sf_table (f_table x ++ [(k, fd)]) x) s).
  Proof.
    intros [[H1 H2] H3].
    assert (G : grown s (on_fnt (fun x => sf_table (f_table x ++ [(k, fd)]) x) s)).
    { destruct (grown_refl s) as (G1 & _ & G3 & G4). split; [exact G1|]. split; [now eexists|]. split; [exact G3|exact G4]. }
    split; [split|eapply grown_trans; eauto].
    - intros i pg Hp. eapply okops_mono; [exact G|]. exact (H1 _ _ Hp).
    - split; [|apply H2]. destruct H2 as [[H2|(k' & fd' & H4 & H5)] _]; [now left|]. right. exists k', fd'. split; [apply in_or_app; now left|exact H5].
  Qed.
  Lemma d_blends x s0 s : ~ In x (g_blends (t_gfx s)) -> good s0 s -> good s0 (on_gfx (fun g => sg_blends (g_blends g ++ [x]) g) s).
  Proof.
    intros Hx [[H1 H2] H3].
    assert (G : grown s (on_gfx (fun g => sg_blends (g_blends g ++ [x]) g) s)).
    { destruct (grown_refl s) as (_ & G2 & G3 & G4). split; [now eexists|]. split; [exact G2|]. split; [exact G3|exact G4]. }
    split; [split; [|split; [apply H2|]]|eapply grown_trans; eauto].
    - intros i pg Hp. eapply okops_mono; [exact G|]. exact (H1 _ _ Hp).
    - cbn. destruct H2 as [_ H2]. clear - Hx H2. induction (g_blends (t_gfx s)) as [|y l IH]; cbn; [repeat constructor; auto|].
      inversion H2. subst. constructor; [|apply IH; auto; intros X; apply Hx; now right].
      rewrite in_app_iff. intros [X|[<-|[]]]; auto. apply Hx. now left.
  Qed.

  Definition tame_op (o : op A) : bool := match o with Gs _ | Tf _ _ => false | _ => true end.
  Lemma okops_tame s l : forallb tame_op l = true -> okops s l.
  Proof.
    intros H. apply Forall_forall. rewrite forallb_forall in H. intros o Ho. specialize (H o Ho). destruct o; try discriminate H; exact I.
  Qed.

  Ltac dd :=
    match goal with
    | H : good ?a ?s |- good ?a ?s => exact H
    | |- good _ (emit _ _) => apply d_emit; [apply okops_tame; reflexivity|]; dd
    | |- good _ (emit_on_page _ _) => apply d_eop; [apply okops_tame; reflexivity|]; dd
    | |- good _ (new_link _ _ _ _ _ _ _) => apply d_link; dd
    | |- good _ (on_gfx _ _) => apply d_gfx; [reflexivity|]; dd
    | |- good _ (on_geo _ _) => apply d_geo; dd
    | |- good _ (on_nest _ _) => apply d_nest; dd
    | |- good _ (on_hook _ _) => apply d_hook; dd
    | |- good _ (on_fnt _ _) => apply d_fnt; [reflexivity|reflexivity|]; dd
    | |- good _ (force_err _ _) => apply d_err; dd
    | |- good _ (on_life (sl_err None) _) => apply d_clear; dd
    | |- good _ (on_life (sl_page _) _) => apply d_page; dd
    | |- good _ (turn _) => apply d_turn; dd
    | |- good _ (log _ _) => apply d_log; dd
    | |- good _ (match ?b with _ => _ end) => destruct b; dd
    end.

  Lemma assoc_in {B} k (l : list (bytes * B)) v : assoc k l = Some v -> exists k', In (k', v) l.
  Proof.
    induction l as [|[k' v'] l IH]; [discriminate|]. cbn. destruct (beqb k k'); [intros [= <-]; eauto|].
    intros H. destruct (IH H) as [k2 H2]. eauto.
  Qed.
  Lemma d_select fam sty fd size s0 s : (exists k, In (k, fd) (f_table (t_fnt s))) -> good s0 s -> good s0 (select_font fam sty fd size s).
  Proof.
    intros [k Hk] [[H1 H2] H3]. unfold select_font. apply d_eop.
    - constructor; [|constructor]. cbn. right. exists k, fd. auto.
    - split; [split; [exact H1|split; [|apply H2]]|exact H3]. cbn. right. exists k, fd. auto.
  Qed.
  Lemma d_add_font fam sty r s0 s : good s0 s -> good s0 (add_font fam sty r s).
  Proof. intros H. unfold add_font. cbv zeta. split_ifs; try dd. now apply d_table. Qed.
  Lemma d_set_font fam sty size s0 s : good s0 s -> good s0 (set_font core_font fam sty size s).
  Proof.
    intros H. unfold set_font. destruct (failed s); [exact H|]. cbv zeta.
    set (s1 := on_fnt _ s). assert (H1 : good s0 s1) by (unfold s1; dd). clearbody s1.
    set (fam1 := match fam_escape fam with [] => _ | _ => _ end). clearbody fam1.
    set (z := if neq A size _ then _ else _). clearbody z.
    destruct (assoc (fam1 ++ norm_style sty) (f_table (t_fnt s1))) eqn:E1; [apply d_select; [eapply assoc_in; eauto|exact H1]|].
    set (fam2 := if beqb fam1 _ then _ else _). clearbody fam2.
    destruct (List.existsb _ _); [|dd].
    set (fam3 := if beqb fam2 _ then _ else _). clearbody fam3. set (sty1 := if beqb fam3 _ then _ else _). clearbody sty1.
    destruct (assoc (fam3 ++ sty1) (f_table (t_fnt s1))) eqn:E2; [apply d_select; [eapply assoc_in; eauto|exact H1]|].
    set (s2 := add_font _ _ _ _). assert (H2 : good s0 s2) by now apply d_add_font. clearbody s2.
    destruct (failed s2); [exact H2|].
    destruct (assoc (fam3 ++ sty1) (f_table (t_fnt s2))) eqn:E3; [apply d_select; [eapply assoc_in; eauto|exact H2]|exact H2].
  Qed.
  Lemma d_put_font v s0 s : good s0 s -> good s0 (put_font core_font v s).
  Proof. intros H. unfold put_font. destruct (v_fam v); [exact H|now apply d_set_font]. Qed.
  Lemma d_open_page v s0 s : good s0 s -> good s0 (fst (open_page core_font v s)).
  Proof.
    intros Hi. unfold open_page. cbv zeta.
    assert (H : good s0 (put_font core_font v (open_lines v s))).
    { apply d_put_font. unfold open_lines. cbv zeta. destruct (g_dash _); dd. }
    destruct (stops _ _); cbn; [exact H|]. unfold put_text, open_fill, open_draw. cbv zeta. split_ifs; dd.
  Qed.
  Lemma d_put_back v s0 s : good s0 s -> good s0 (put_back core_font v s).
  Proof.
    intros Hi. unfold put_back. cbv zeta.
    assert (H : good s0 (put_font core_font v (back_width v s))).
    { apply d_put_font. unfold back_width. destruct (neq _ _ _); dd. }
    destruct (stops _ _); cbn; [exact H|]. unfold put_text. apply d_gfx; [reflexivity|].
    assert (H1 : good s0 (back_draw v (put_font core_font v (back_width v s)))).
    { unfold back_draw. destruct (beqb _ _); dd. }
    unfold back_fill. destruct (beqb _ _); dd.
  Qed.
  Lemma d_end_layer s0 s : good s0 s -> good s0 (end_layer s).
  Proof. intros. unfold end_layer. destruct (n_layer _); dd. Qed.
  Lemma d_end_page s0 s : good s0 s -> good s0 (end_page s).
  Proof. intros H. apply d_end_layer in H. exact H. Qed.
  Lemma d_begin_page o w h s0 s : good s0 s -> good s0 (begin_page o w h s).
  Proof.
    intros Hi. unfold begin_page. destruct (failed s); [exact Hi|]. cbv zeta.
    assert (G : good s0 (fresh_page s)).
    { destruct Hi as [[H1 H2] H3]. split; [split; [|exact H2]|].
      - intros i pg Hp. cbn in Hp. destruct (Nat.lt_ge_cases i (List.length (l_pages (t_life s)))) as [L|L].
        + rewrite nth_error_app1 in Hp by exact L. exact (H1 _ _ Hp).
        + rewrite nth_error_app2 in Hp by exact L. destruct (i - _)%nat as [|[|?]]; cbn in Hp; try discriminate. injection Hp as <-. constructor.
      - eapply grown_trans; [exact H3|]. destruct (grown_refl s) as (G1 & G2 & G3 & G4). split; [exact G1|]. split; [exact G2|]. split; [|exact G4].
        intros i pg Hp. exists pg. split; [|apply appended_refl]. cbn. rewrite nth_error_app1; [exact Hp|]. apply nth_error_Some. congruence. }
    set (s1 := fresh_page s) in *. clearbody s1. set (o' := match o with [] => _ | _ => _ end). clearbody o'.
    assert (G2 : good s0 (on_geo (resize o' w h) s1)) by dd. set (s2 := on_geo _ _) in *. clearbody s2.
    unfold note_size. cbv zeta. destruct (_ || _); [|exact G2].
    destruct G2 as [[H1 H2] H3]. split; [split; [|exact H2]|].
    - intros i pg. cbn -[upd]. intros Hp. apply nth_upd_cases in Hp as [[-> (p & Ha & ->)]|[N Ha]]; exact (H1 _ _ Ha).
    - eapply grown_trans; [exact H3|]. unfold grown. cbn -[upd].
      repeat split; try (exists []; now rewrite app_nil_r); auto.
      intros i pg Hp. destruct (Nat.eq_dec i (l_page (t_life s2))) as [->|N].
      + rewrite (nth_error_upd_eq _ _ _ _ Hp). eexists. split; [reflexivity|]. split; exists []; cbn; now rewrite app_nil_r.
      + rewrite nth_error_upd by exact N. exists pg. split; [exact Hp|apply appended_refl].
  Qed.
  Lemma d_cell w h txt border ln align fill l u s0 s : good s0 s -> good s0 (cell_body w h txt border ln align fill l u s).
  Proof.
    intros Hi. unfold cell_body. cbv zeta. set (ww := if neq _ _ _ then _ else w). set (ops := _ ++ _).
    assert (Ho : forall s, okops s ops).
    { intros s2. apply okops_tame. unfold ops. rewrite forallb_app. apply andb_true_intro. split.
      - unfold cell_box. cbv zeta. rewrite forallb_app. split_ifs; reflexivity.
      - destruct txt; [reflexivity|]. unfold cell_text. cbv zeta. split_ifs; reflexivity. }
    clearbody ops. set (s1 := match txt with [] => s | _ :: _ => _ end).
    assert (H : good s0 s1) by (unfold s1; destruct txt; [exact Hi|]; destruct (_ || _); dd). clearbody s1.
    assert (H2 : good s0 (match ops with [] => s1 | _ => emit ops s1 end)) by (destruct ops; [exact H|apply d_emit; auto]).
    destruct (ln >? 0); dd.
  Qed.
  Lemma d_image id x y w h negx l u s0 s : good s0 s -> good s0 (image_place id x y w h negx l u s).
  Proof. intros Hi. unfold image_place. cbv zeta. set (xx := if negx then x else _). clearbody xx. destruct (_ || _); dd. Qed.
  Lemma d_transform a b c d e f s0 s : good s0 s -> good s0 (transform a b c d e f s).
  Proof. intros. unfold transform, fail. split_ifs; dd. Qed.
  Lemma cm_of_tame m : tame_op (cm_of m) = true.
  Proof. unfold cm_of. split_ifs; reflexivity. Qed.
  Lemma index_of_bound a m l i : index_of a m l = Some i -> (i < List.length l)%nat.
  Proof.
    revert i. induction l as [|[a' m'] l IH]; intros i; [discriminate|]. cbn. destruct (_ && _); [intros [= <-]; lia|].
    destruct (index_of a m l); [|discriminate]. intros [= <-]. specialize (IH _ eq_refl). lia.
  Qed.
  Lemma index_of_none a m l : index_of a m l = None -> ~ In (a, m) l.
  Proof.
    induction l as [|[a' m'] l IH]; [auto|]. cbn. destruct (beqb a a' && beqb m m') eqn:E; [discriminate|].
    destruct (index_of a m l); [discriminate|]. intros _ [[= <- <-]|H]; [now rewrite !beqb_refl in E|]. now apply IH.
  Qed.
  Lemma index_of_some a m l i : index_of a m l = Some i -> nth_error l i = Some (a, m).
  Proof.
    revert i. induction l as [|[a' m'] l IH]; intros i; [discriminate|]. cbn. destruct (beqb a a' && beqb m m') eqn:E.
    - intros [= <-]. apply andb_true_iff in E as [E1 E2]. apply beqb_eq in E1, E2. now subst.
    - destruct (index_of a m l); [|discriminate]. intros [= <-]. now apply IH.
  Qed.
  Lemma d_set_alpha a m s0 s : good s0 s -> good s0 (set_alpha a m s).
  Proof.
    intros H. unfold set_alpha. destruct (failed s); [exact H|]. destruct (negb _); [dd|]. destruct (_ || _); [dd|]. cbv zeta.
    set (s1 := on_gfx _ s). assert (H1 : good s0 s1) by (unfold s1; dd). clearbody s1.
    destruct (index_of _ _ _) as [i|] eqn:E.
    - apply d_emit; [|exact H1]. constructor; [|constructor]. cbn. apply index_of_bound in E. unfold nblends. lia.
    - apply d_emit; [|apply d_blends; [now apply index_of_none|exact H1]]. constructor; [|constructor]. cbn. unfold nblends. cbn. rewrite app_length. cbn. lia.
  Qed.

  Lemma d_simple c s0 s s' : simple c = true -> step core_font asm no_runner c s = Some s' -> good s0 s -> good s0 s'.
  Proof.
    intros H1 HH Hi. destruct c; try discriminate H1; clear H1; cbn [step] in HH; try (injection HH as <-);
      try (apply d_set_font; exact Hi); try (apply d_set_alpha; exact Hi); try (apply d_add_font; exact Hi);
      try solve [unfold transform_scale, transform_rotate, transform_skew, transform_translate; cbv zeta;
                 split_ifs; try apply d_transform; dd];
      try solve [open_simple; try destruct (failed s); split_ifs; dd].
    - (* SetFontSize *) unfold set_font_size. apply d_eop; [|dd]. constructor; [|constructor]. apply Hi.
    - unfold set_font_unit_size. cbv zeta. apply d_eop; [|dd]. constructor; [|constructor]. apply Hi.
    - (* DrawRotated *) apply d_emit; [|exact Hi]. apply okops_tame. cbn. now rewrite cm_of_tame.
    - (* Gradient *) apply d_emit; [|exact Hi]. apply okops_tame. cbn. now rewrite cm_of_tame.
    - (* UseTemplate *) unfold fail. split_ifs; try dd. apply d_emit; [|exact Hi]. apply okops_tame. cbn. now rewrite cm_of_tame.
    - (* AddLink *) apply d_links; [|exact Hi]. rewrite app_length. lia.
    - (* SetLink *) revert HH. unfold set_link. cbv zeta. destruct (_ && _); [|discriminate]. intros [= <-]. apply d_links; [|exact Hi]. now rewrite length_upd.
  Qed.
  Lemma d_prim (P : call A -> Prop) V s0 s s' : prim core_font asm P V s s' -> good s0 s -> good s0 s'.
  Proof.
    intros H Hi. destruct H; try exact Hi; try solve [dd].
    - eapply d_simple; eauto.
    - now apply d_end_page.
    - unfold start_page. cbv zeta. split_ifs; exact Hi.
    - apply d_open_page. now apply d_begin_page.
    - now apply d_put_back.
    - unfold end_doc in H0. destruct (failed s); [injection H0 as <-; exact Hi|].
      destruct (asm s) as [[b [e|]]|]; [| |discriminate]; injection H0 as <-; exact Hi.
    - destruct w; exact Hi.
    - now apply d_cell.
    - now apply d_image.
  Qed.
  Theorem d_run n p s b s' : rinv s -> run core_font asm n p s = Some (b, s') -> good s s'.
  Proof.
    intros Hi H.
    destruct (run_good core_font asm (fun _ => True) rinv grown (fun _ => True)) with (n := n) (p := p) (s := s) (b := b) (s' := s')
      as (_ & Hi' & R); auto.
    - intros s0 _. apply grown_refl.
    - apply grown_trans.
    - intros s0 s1 Hp _ H0. apply (d_prim _ _ s0 _ _ Hp). split; [exact H0|apply grown_refl].
    - now apply any_calls.
    - now apply any_hooks.
    - split; assumption.
  Qed.
  Lemma init_rinv k o w h m : rinv (init (A := A) k o w h m).
  Proof.
    unfold init. destruct (if beqb o (bs "P") then _ else _). split; [|split; [now left|constructor]].
    intros [|[|i]] pg; cbn; try discriminate. intros [= <-]. constructor.
  Qed.
End Res.
