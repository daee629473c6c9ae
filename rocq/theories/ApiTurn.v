(** Turning a page when the registered functions turn none themselves. *)
From Verif Require Import Base ApiModel ApiProofs ApiErr ApiQuiet.
Local Open Scope list_scope.
Local Open Scope Z_scope.

Section Turn.
  Context {A : arith} (core_font : bytes -> bytes -> fontdef + bytes)
    (asm : st A -> option (bytes * option error)).
  Implicit Types s : st A.

  (** calls a header or footer may make here: they turn no page, finish
      nothing, register nothing and clear no error *)
  Definition decent (c : call A) : Prop := quiet c = true /\ registers c = false /\ c <> ClearError.

  (** the effect of running such a function while the header or footer flag is up *)
  Definition tame (r : @runner A) (p : prog A) : Prop :=
    forall s b s', h_inh (t_hook s) || h_inf (t_hook s) = true -> r p s = Some (b, s') ->
      frame s s' /\ t_hook s' = t_hook s /\ (failed s = true -> failed s' = true).

  Lemma step_decent r c s s' : decent c -> h_inh (t_hook s) || h_inf (t_hook s) = true ->
    step core_font asm r c s = Some s' -> t_hook s' = t_hook s /\ (failed s = true -> failed s' = true).
  Proof.
    intros (Hq & Hn & Hc) Hin. destruct (simple c) eqn:Es.
    { rewrite simple_step by exact Es. intros H. split; [eapply simple_hook; eauto|]. intros Hf. eapply simple_failed; eauto. }
    destruct c; try discriminate Es; try discriminate Hq; cbn [step].
    - unfold cell_format. destruct (failed s) eqn:Ef; [intros [= <-]; auto|].
      destruct (beqb _ _); [intros [= <-]; auto|].
      cbv zeta. unfold cell_break. rewrite no_break by exact Hin. intros [= <-]. split; [apply cell_body_hook|discriminate].
    - unfold image_out. destruct (image_size _ _ _ _ _ _) as [w' h'].
      rewrite no_break by exact Hin. destruct flow; intros [= <-]; (split; [rewrite image_place_hook; reflexivity|]);
        intros Hf; unfold failed; rewrite image_place_errof; exact Hf.
  Qed.

  Lemma decent_tame n p : okp decent p -> tame (run core_font asm n) p.
  Proof.
    intros Hp s b s' Hin H. split.
    { eapply run_quiet; [|exact Hin|exact H]. eapply okp_impl; [|exact Hp]. intros c Hc. apply Hc. }
    revert s b s' Hin H. induction p as [b0|c k IH]; intros s b s' Hin; cbn.
    - intros [= <- <-]. auto.
    - destruct Hp as [Hc Hk]. apply okc_self in Hc. destruct (exec core_font asm n c s) as [s1|] eqn:E; [|discriminate].
      destruct n as [|n]; [discriminate E|]. cbn in E.
      destruct (step_decent _ _ _ _ Hc Hin E) as [H1 H2]. intros H.
      rewrite <- H1 in Hin. destruct (IH _ (Hk _) _ _ _ Hin H) as [H3 H4].
      split; [congruence|]. auto.
  Qed.

  (** the events of a footer and of a header *)
  Definition foot_events (h : @hooks A) (p : nat) (last : bool) : list (@event A) :=
    match h_foot h, h_footl h with
    | Some _, _ => [EvFooter p None]
    | None, Some _ => [EvFooter p (Some last)]
    | None, None => []
    end.
  Definition head_events (h : @hooks A) (p : nat) : list (@event A) :=
    match h_head h with Some _ => [EvHeader p] | None => [] end.

  Definition tame_hooks (r : @runner A) (h : @hooks A) : Prop :=
    (forall p, h_head h = Some p -> tame r p) /\ (forall p, h_foot h = Some p -> tame r p) /\
    (forall p b, h_footl h = Some p -> tame r (p b)).

  (** equal up to the flags and the log *)
  Definition frame_log (ev : list (@event A)) s s' : Prop :=
    l_state (t_life s') = l_state (t_life s) /\ pageno s' = pageno s /\
    length (l_pages (t_life s')) = length (l_pages (t_life s)) /\ t_log s' = t_log s ++ ev /\
    t_hook s' = t_hook s /\
    (l_state (t_life s) = 2 -> l_buf (t_life s') = l_buf (t_life s)) /\
    (forall i, i <> pageno s -> nth_error (l_pages (t_life s')) i = nth_error (l_pages (t_life s)) i) /\
    (failed s = true -> failed s' = true).

  Lemma inf_true_false (h : @hooks A) : h_inf h = false -> sh_inf false (sh_inf true h) = h.
  Proof. destruct h; cbn. now intros ->. Qed.
  Lemma inh_true_false (h : @hooks A) : h_inh h = false -> sh_inh false (sh_inh true h) = h.
  Proof. destruct h; cbn. now intros ->. Qed.

  Lemma run_footer_frame r last s s' : tame_hooks r (t_hook s) -> h_inf (t_hook s) = false ->
    run_footer r last s = Some s' -> frame_log (foot_events (t_hook s) (pageno s) last) s s'.
  Proof.
    intros (_ & T1 & T2) Hin. unfold run_footer, foot_events. cbv zeta. cbn.
    destruct (h_foot (t_hook s)) as [p|] eqn:E1; [|destruct (h_footl (t_hook s)) as [p|] eqn:E2].
    - unfold call_hook. destruct (r p _) as [[b s1]|] eqn:E; [|discriminate]. cbn. intros [= <-].
      apply T1 in E; auto; [|cbn; now rewrite orb_true_r].
      destruct E as ((F1 & F2 & F3 & F4 & F5 & F6 & F7 & F8) & G & K). cbn in *.
      unfold frame_log. cbn. rewrite G. cbn. rewrite inf_true_false by exact Hin. repeat split; auto.
    - unfold call_hook. destruct (r (p last) _) as [[b s1]|] eqn:E; [|discriminate]. cbn. intros [= <-].
      eapply T2 in E; auto; [|cbn; now rewrite orb_true_r].
      destruct E as ((F1 & F2 & F3 & F4 & F5 & F6 & F7 & F8) & G & K). cbn in *.
      unfold frame_log. cbn. rewrite G. cbn. rewrite inf_true_false by exact Hin. repeat split; auto.
    - intros [= <-]. unfold frame_log. cbn. rewrite inf_true_false by exact Hin. rewrite app_nil_r. repeat split; auto.
  Qed.

  Lemma run_header_frame r s s' : tame_hooks r (t_hook s) -> h_inh (t_hook s) = false ->
    run_header r s = Some s' -> frame_log (head_events (t_hook s) (pageno s)) s s'.
  Proof.
    intros (T1 & _) Hin. unfold run_header, head_events.
    destruct (h_head (t_hook s)) as [p|] eqn:E1.
    - unfold call_hook. destruct (r p _) as [[b s1]|] eqn:E; [|discriminate]. cbn. intros [= <-].
      apply T1 in E; auto.
      destruct E as ((F1 & F2 & F3 & F4 & F5 & F6 & F7 & F8) & G & K). cbn in *.
      assert (H : frame_log [EvHeader (pageno s)] s (on_hook (sh_inh false) s1)).
      { unfold frame_log. cbn. rewrite G. cbn. rewrite inh_true_false by exact Hin. repeat split; auto. }
      destruct (h_home _); [|exact H].
      destruct H as (B1 & B2 & B3 & B4 & B5 & B6 & B7 & B8).
      destruct (frame_home (on_hook (sh_inh false) s1)) as (C1 & C2 & C3 & C4 & C5 & C6 & C7 & C8).
      unfold frame_log. repeat split; try congruence.
      + rewrite <- B5. reflexivity.
      + intros H. rewrite C7, B6; congruence.
      + intros i Hi. rewrite C8, B7; congruence.
      + exact B8.
    - intros [= <-]. unfold frame_log. rewrite app_nil_r. repeat split; auto.
  Qed.

  Lemma begin_page_facts o w h s : failed s = false ->
    let s' := begin_page o w h s in
    l_state (t_life s') = 2 /\ pageno s' = S (pageno s) /\
    length (l_pages (t_life s')) = S (length (l_pages (t_life s))) /\
    t_log s' = t_log s ++ [EvTurn (n_clip (t_nest s) + n_tran (t_nest s)) (n_layer (t_nest s))] /\
    l_buf (t_life s') = l_buf (t_life s) /\ failed s' = false /\
    (forall i, i <> S (pageno s) -> (i < length (l_pages (t_life s)))%nat -> nth_error (l_pages (t_life s')) i = nth_error (l_pages (t_life s)) i).
  Proof.
    intros Hf. unfold begin_page. rewrite Hf. cbv zeta. unfold note_size. cbv zeta.
    destruct (_ || _); unfold pageno; cbn -[upd]; rewrite ?length_upd, ?app_length; cbn -[upd]; repeat split; auto; try lia.
    - intros i Hi Hl. rewrite nth_error_upd by exact Hi. now rewrite nth_error_app1.
    - intros i Hi Hl. now rewrite nth_error_app1.
  Qed.

  Lemma end_page_facts s : let s' := end_page s in
    l_state (t_life s') = 1 /\ pageno s' = pageno s /\ length (l_pages (t_life s')) = length (l_pages (t_life s)) /\
    (exists d ly, t_log s' = t_log s ++ [EvTurn d ly]) /\ t_hook s' = t_hook s /\ failed s' = failed s /\
    (l_state (t_life s) = 2 -> l_buf (t_life s') = l_buf (t_life s)) /\
    (forall i, i <> pageno s -> nth_error (l_pages (t_life s')) i = nth_error (l_pages (t_life s)) i).
  Proof.
    assert (HF : frame s (end_layer s)).
    { unfold end_layer. destruct (n_layer _); [|apply frame_refl]. eapply frame_trans; [apply frame_emit|apply frame_nest]. }
    assert (HE : failed (end_layer s) = failed s).
    { unfold end_layer. destruct (n_layer _); [|reflexivity]. rewrite on_failed. apply emit_failed. }
    destruct HF as (C1 & C2 & C3 & C4 & C5 & C6 & C7 & C8).
    unfold end_page, pageno in *. cbn. repeat split; auto.
    - exists (n_clip (t_nest (end_layer s)) + n_tran (t_nest (end_layer s))), (n_layer (t_nest (end_layer s))). now rewrite C4.
    - apply end_layer_hook.
  Qed.

  (** the events of the log other than the page turns *)
  Definition hf (l : list (@event A)) : list event :=
    filter (fun e => match e with EvTurn _ _ => false | _ => true end) l.
  Lemma hf_app a b : hf (a ++ b) = hf a ++ hf b.
  Proof. apply filter_app. Qed.
  Lemma hf_foot h p b : hf (foot_events h p b) = foot_events h p b.
  Proof. unfold foot_events. destruct (h_foot h), (h_footl h); reflexivity. Qed.
  Lemma hf_head h p : hf (head_events h p) = head_events h p.
  Proof. unfold head_events. destruct (h_head h); reflexivity. Qed.

  Lemma start_page_facts s :
    t_hook (start_page s) = t_hook s /\ pageno (start_page s) = (length (l_pages (t_life s)) - 1)%nat /\
    l_pages (t_life (start_page s)) = l_pages (t_life s) /\ hf (t_log (start_page s)) = hf (t_log s) /\
    failed (start_page s) = failed s /\ l_buf (t_life (start_page s)) = l_buf (t_life s) /\
    (l_state (t_life s) = 2 -> l_state (t_life (start_page s)) = 2).
  Proof.
    unfold start_page, pageno. cbv zeta.
    destruct (Nat.eqb_spec (l_page (t_life s)) (length (l_pages (t_life s)) - 1)) as [N|N]; cbn [on_life st_life t_life sl_page l_state turn log st_log].
    - destruct (l_state (t_life s) =? 0) eqn:E; cbn; repeat split; auto. intros HH; rewrite HH in E; discriminate.
    - destruct (l_state (t_life s) =? 0) eqn:E; cbn; rewrite hf_app; cbn; rewrite ?app_nil_r; repeat split; auto. intros HH; rewrite HH in E; discriminate.
  Qed.

  (** Turning a page without an error adds exactly one page, at the end, and
      runs the footer of the page before and the header of the new one. *)
  Lemma turn_page r o w h s s' :
    tame_hooks r (t_hook s) -> h_inh (t_hook s) = false -> h_inf (t_hook s) = false ->
    failed s = false -> (0 < length (l_pages (t_life s)))%nat ->
    add_page_format core_font r o w h s = Some s' -> failed s' = false ->
    t_hook s' = t_hook s /\ l_state (t_life s') = 2 /\ pageno s' = length (l_pages (t_life s)) /\
    length (l_pages (t_life s')) = S (length (l_pages (t_life s))) /\
    hf (t_log s') = hf (t_log s) ++
      (if (length (l_pages (t_life s)) =? 1)%nat then [] else foot_events (t_hook s) (length (l_pages (t_life s)) - 1) false) ++
      head_events (t_hook s) (length (l_pages (t_life s))) /\
    (l_state (t_life s) = 2 \/ length (l_pages (t_life s)) = 1%nat -> l_buf (t_life s') = l_buf (t_life s)) /\
    (forall i, (S i < length (l_pages (t_life s)))%nat -> nth_error (l_pages (t_life s')) i = nth_error (l_pages (t_life s)) i).
  Proof.
    intros HT Hih Hif Hf Hlen. unfold add_page_format. rewrite Hf. cbv zeta.
    destruct (start_page_facts s) as (B1 & B2 & B3 & B4 & B5 & B6 & B7). rewrite Hf in B5.
    set (s1 := start_page s) in *. clearbody s1.
    destruct (leave_page r s1) as [s2|] eqn:E2; [|discriminate].
    assert (L : t_hook s2 = t_hook s /\ pageno s2 = (length (l_pages (t_life s)) - 1)%nat /\
                length (l_pages (t_life s2)) = length (l_pages (t_life s)) /\
                hf (t_log s2) = hf (t_log s) ++ (if (length (l_pages (t_life s)) =? 1)%nat then [] else foot_events (t_hook s) (length (l_pages (t_life s)) - 1) false) /\
                (l_state (t_life s) = 2 \/ length (l_pages (t_life s)) = 1%nat -> l_buf (t_life s2) = l_buf (t_life s)) /\
                (forall i, (S i < length (l_pages (t_life s)))%nat -> nth_error (l_pages (t_life s2)) i = nth_error (l_pages (t_life s)) i)).
    { unfold leave_page, on_page in E2. rewrite B2 in E2.
      destruct (Nat.eqb_spec (length (l_pages (t_life s)) - 1) 0) as [N|N]; cbn in E2.
      - injection E2 as <-. replace (length (l_pages (t_life s))) with 1%nat by lia. cbn. rewrite app_nil_r, B3, B4. repeat split; auto; lia.
      - destruct (run_footer r false s1) as [s3|] eqn:E3; [|discriminate]. injection E2 as <-.
        apply run_footer_frame in E3; [|now rewrite B1|now rewrite B1].
        destruct E3 as (D1 & D2 & D3 & D4 & D5 & D6 & D7 & D8).
        destruct (end_page_facts s3) as (F1 & F2 & F3 & (d & ly & F4) & F5 & F6 & F7 & F8).
        destruct (Nat.eqb_spec (length (l_pages (t_life s))) 1) as [N1|N1]; [lia|].
        repeat split.
        + congruence.
        + congruence.
        + congruence.
        + rewrite F4, D4, !hf_app, B4, B1, B2, hf_foot. cbn. now rewrite app_nil_r.
        + intros [H|H]; [|lia]. rewrite F7, D6; auto. rewrite D1. auto.
        + intros i Hi. rewrite F8, D7, B3; auto; lia. }
    clear E2. destruct L as (L1 & L2 & L3 & L4 & L5 & L6).
    destruct (failed s2) eqn:F2.
    { (* the footer failed: then AddPageFormat does not succeed *)
      intros H Hs'. exfalso.
      assert (G : failed (fst (open_page core_font (save_state s1) (begin_page o w h s2))) = true).
      { unfold begin_page. rewrite F2. unfold open_page. cbv zeta.
        assert (G1 : failed (open_lines (save_state s1) s2) = true).
        { unfold open_lines. cbv zeta. destruct (g_dash _); rewrite ?emit_failed; exact F2. }
        rewrite put_font_failed by exact G1. destruct (stops _ _); cbn [fst]; [exact G1|].
        unfold put_text, open_fill, open_draw. cbv zeta. split_ifs; rewrite ?og_failed, ?emit_failed, ?og_failed, ?emit_failed, ?og_failed; exact G1. }
      pose proof (open_page_hook core_font (save_state s1) (begin_page o w h s2)) as Gh. rewrite begin_page_hook, L1 in Gh.
      destruct (open_page _ _ _) as [s3 [|]]; cbn [fst] in G, Gh; [|injection H as <-; congruence].
      destruct (run_header r s3) as [s4|] eqn:E4; [|discriminate]. injection H as <-.
      apply run_header_frame in E4; [|now rewrite Gh|now rewrite Gh].
      destruct E4 as (_ & _ & _ & _ & _ & _ & _ & D8). specialize (D8 G).
      assert (G2 : failed (back_width (save_state s1) s4) = true).
      { unfold back_width. destruct (neq _ _ _); rewrite ?emit_failed, ?og_failed; exact D8. }
      unfold put_back in Hs'. cbv zeta in Hs'. rewrite put_font_failed in Hs' by exact G2.
      destruct (stops _ _); [congruence|].
      unfold put_text in Hs'. rewrite og_failed in Hs'.
      assert (G3 : failed (back_draw (save_state s1) (back_width (save_state s1) s4)) = true)
        by (unfold back_draw; destruct (beqb _ _); rewrite ?emit_failed, ?og_failed; exact G2).
      assert (G4 : failed (back_fill (save_state s1) (back_draw (save_state s1) (back_width (save_state s1) s4))) = true)
        by (unfold back_fill; destruct (beqb _ _); rewrite ?emit_failed, ?og_failed; exact G3).
      congruence. }
    destruct (begin_page_facts o w h s2 F2) as (G1 & G2 & G3 & G4 & G5 & G6 & G7).
    set (s3 := begin_page o w h s2) in *.
    pose proof (frame_open_page core_font (save_state s1) s3) as O.
    pose proof (open_page_hook core_font (save_state s1) s3) as Oh.
    assert (Bh : t_hook s3 = t_hook s) by (unfold s3; rewrite begin_page_hook; exact L1).
    assert (Core : forall s4 ev, frame_log ev s3 s4 ->
      t_hook s4 = t_hook s /\ l_state (t_life s4) = 2 /\ pageno s4 = length (l_pages (t_life s)) /\
      length (l_pages (t_life s4)) = S (length (l_pages (t_life s))) /\
      hf (t_log s4) = (hf (t_log s) ++
        (if (length (l_pages (t_life s)) =? 1)%nat then [] else foot_events (t_hook s) (length (l_pages (t_life s)) - 1) false)) ++ hf ev /\
      (l_state (t_life s) = 2 \/ length (l_pages (t_life s)) = 1%nat -> l_buf (t_life s4) = l_buf (t_life s)) /\
      (forall i, (S i < length (l_pages (t_life s)))%nat -> nth_error (l_pages (t_life s4)) i = nth_error (l_pages (t_life s)) i)).
    { intros s4 ev (D1 & D2 & D3 & D4 & D5 & D6 & D7 & D8). repeat split.
      - congruence.
      - congruence.
      - rewrite D2, G2, L2. lia.
      - rewrite D3, G3, L3. reflexivity.
      - rewrite D4, G4, !hf_app, L4. cbn. now rewrite app_nil_r.
      - intros H. rewrite D6, G5, L5; auto.
      - intros i Hi. rewrite D7 by (rewrite G2, L2; lia). rewrite G7 by (rewrite ?L2, ?L3; lia). now apply L6. }
    assert (O1 : frame_log [] s3 (fst (open_page core_font (save_state s1) s3))).
    { destruct O as (D1 & D2 & D3 & D4 & D5 & D6 & D7 & D8). unfold frame_log. rewrite app_nil_r. repeat split; auto. congruence. }
    destruct (open_page _ _ _) as [s4 [|]] eqn:Eop; cbn [fst] in *.
    2: { intros [= <-] Hs'. exfalso. revert Eop. unfold open_page. cbv zeta. destruct (stops _ _) eqn:Est; [|discriminate].
         intros [= E]. rewrite E in Est. unfold stops in Est. apply andb_prop in Est as [_ Est]. congruence. }
    destruct (run_header r s4) as [s5|] eqn:E5; [|discriminate]. intros [= <-] Hs'.
    apply run_header_frame in E5; [|rewrite Oh, Bh; exact HT|rewrite Oh, Bh; exact Hih].
    assert (P5 : frame_log (head_events (t_hook s) (length (l_pages (t_life s)))) s3 (put_back core_font (save_state s1) s5)).
    { pose proof (put_back_hook core_font (save_state s1) s5) as Ph.
      destruct (frame_put_back core_font (save_state s1) s5) as (D1 & D2 & D3 & D4 & D5 & D6 & D7 & D8).
      destruct E5 as (H1 & H2 & H3 & H4 & H5 & H6 & H7 & H8).
      destruct O1 as (I1 & I2 & I3 & I4 & I5 & I6 & I7 & I8).
      unfold frame_log. repeat split; try congruence.
      - rewrite D4, H4, I4, app_nil_r, Oh, Bh. f_equal. f_equal. rewrite I2, G2, L2. lia.
      - intros H. rewrite D7, H6, I6; congruence.
      - intros i Hi. rewrite D8, H7, I7; congruence. }
    destruct (Core _ _ P5) as (K1 & K2 & K3 & K4 & K5 & K6 & K7). repeat split; auto.
    rewrite K5, hf_head, app_assoc. reflexivity.
  Qed.
End Turn.
