(** The life of a document: pages, header and footer calls, closing. *)
From Verif Require Import Base ApiModel ApiProofs ApiErr ApiQuiet ApiTurn.
Local Open Scope list_scope.
Local Open Scope Z_scope.

Section Life.
  Context {A : arith} (core_font : bytes -> bytes -> fontdef + bytes)
    (asm : st A -> option (bytes * option error)).
  Implicit Types s : st A.

  Definition regs (h : @hooks A) := (h_head h, h_home h, h_foot h, h_footl h, h_accept h).

  (** programs that register nothing and clear no error keep the registered
      functions and any error *)
  Definition plain (c : call A) : Prop := registers c = false /\ c <> ClearError.
  Definition keep s s' : Prop := regs (t_hook s') = regs (t_hook s) /\ (failed s = true -> failed s' = true).

  Lemma open_page_failed v s : failed s = true -> failed (fst (open_page core_font v s)) = true.
  Proof.
    intros F2. unfold open_page. cbv zeta.
    assert (G1 : failed (open_lines v s) = true).
    { unfold open_lines. cbv zeta. destruct (g_dash _); rewrite ?emit_failed; exact F2. }
    rewrite put_font_failed by exact G1. destruct (stops _ _); cbn [fst]; [exact G1|].
    unfold put_text, open_fill, open_draw. cbv zeta. split_ifs; rewrite ?og_failed, ?emit_failed, ?og_failed, ?emit_failed, ?og_failed; exact G1.
  Qed.
  Lemma put_back_failed v s : failed s = true -> failed (put_back core_font v s) = true.
  Proof.
    intros D8. assert (G2 : failed (back_width v s) = true).
    { unfold back_width. destruct (neq _ _ _); rewrite ?emit_failed, ?og_failed; exact D8. }
    unfold put_back. cbv zeta. rewrite put_font_failed by exact G2.
    destruct (stops _ _); [exact G2|]. unfold put_text. rewrite og_failed.
    assert (G3 : failed (back_draw v (back_width v s)) = true)
      by (unfold back_draw; destruct (beqb _ _); rewrite ?emit_failed, ?og_failed; exact G2).
    unfold back_fill; destruct (beqb _ _); rewrite ?emit_failed, ?og_failed; exact G3.
  Qed.
  Lemma end_page_failed s : failed (end_page s) = failed s.
  Proof. destruct (end_page_facts s) as (_ & _ & _ & _ & _ & H & _). exact H. Qed.
  Lemma cell_body_failed w h txt border ln align fill l u s :
    failed (cell_body w h txt border ln align fill l u s) = failed s.
  Proof.
    unfold cell_body. cbv zeta.
    set (s1 := match txt with [] => s | _ :: _ => _ end).
    assert (H : failed s1 = failed s) by (unfold s1; destruct txt; [reflexivity|]; destruct (_ || _); reflexivity).
    clearbody s1. destruct (_ ++ _); destruct (ln >? 0); rewrite ?ox_failed, ?emit_failed; exact H.
  Qed.

  Lemma prim_keep V s s' : prim core_font asm plain V s s' -> keep s s'.
  Proof.
    intros H. split.
    - destruct (prim_hook _ _ _ _ _ _ H) as [(c & H1 & H2 & H3 & H4)|[E|[[b E]|[b E]]]].
      + apply okc_self in H3. destruct H3 as [H3 _]. congruence.
      + now rewrite E.
      + now rewrite E.
      + now rewrite E.
    - intros Hf. destruct H; try exact Hf; try (rewrite emit_failed; exact Hf); try reflexivity.
      + apply okc_self in H0. destruct H0. eapply simple_failed; eauto.
      + now rewrite end_page_failed.
      + congruence.
      + apply open_page_failed. unfold begin_page. now rewrite Hf.
      + now apply put_back_failed.
      + unfold end_doc in H0. rewrite Hf in H0. now injection H0 as <-.
      + destruct w; [exact Hf|reflexivity].
      + now rewrite cell_body_failed.
      + unfold failed. now rewrite image_place_errof.
  Qed.

  Lemma exec_keep n c s s' : okc plain c -> hooks_ok plain s -> exec core_font asm n c s = Some s' ->
    hooks_ok plain s' /\ keep s s'.
  Proof.
    intros Hc Hh H.
    assert (R : reaches plain (fun _ => True) keep s s').
    { eapply (exec_good core_font asm plain (fun _ => True) keep (fun _ => True)); eauto.
      - unfold keep. auto.
      - unfold keep. intros a b d [E1 E2] [E3 E4]. split; [congruence|auto].
      - intros s0 s1 HP _ _. split; auto. now apply prim_keep in HP. }
    destruct R as (H1 & _ & H2). auto.
  Qed.

  (** the calls a page is made of: everything but choosing a page, finishing
      the document, registering functions and clearing the error *)
  Definition body (c : call A) : bool :=
    match c with
    | SetPage _ | Close | Output _ | OutputFileAndClose _ _ | ClearError => false
    | _ => negb (registers c)
    end.
  Lemma body_plain c : body c = true -> plain c.
  Proof. destruct c; try discriminate; intros _; (split; [reflexivity|discriminate]). Qed.
  Lemma decent_plain c : decent c -> plain c.
  Proof. intros (_ & H1 & H2). split; auto. Qed.

  (** the functions an application has registered turn no page (the page break
      function may, being called outside of header and footer) *)
  Definition decent_hooks (h : @hooks A) : Prop :=
    (forall p, h_head h = Some p -> okp decent p) /\
    (forall p, h_foot h = Some p -> okp decent p) /\
    (forall p b, h_footl h = Some p -> okp decent (p b)) /\
    (forall p, h_accept h = Some p -> okp (fun c => body c = true) p).

  Lemma decent_hooks_ok s : decent_hooks (t_hook s) -> hooks_ok plain s.
  Proof.
    intros (H1 & H2 & H3 & H4). repeat split.
    - intros p E. eapply okp_impl; [|apply H1; exact E]. apply decent_plain.
    - intros p E. eapply okp_impl; [|apply H2; exact E]. apply decent_plain.
    - intros p b E. eapply okp_impl; [|apply H3; exact E]. apply decent_plain.
    - intros p E. eapply okp_impl; [|apply H4; exact E]. apply body_plain.
  Qed.

  Lemma decent_tame_hooks n h : decent_hooks h -> tame_hooks (run core_font asm n) h.
  Proof.
    intros (H1 & H2 & H3 & H4). repeat split; intros; eapply decent_tame; eauto.
  Qed.

  (** header and footer calls of a document of N pages whose last page is
      still being written, and of a finished one *)
  Fixpoint opened (h : @hooks A) (N : nat) : list (@event A) :=
    match N with
    | O => []
    | S M => (match M with O => [] | _ => opened h M ++ foot_events h M false end) ++ head_events h N
    end.

  Section Body.
    Context (h0 : @hooks A) (Hh0 : decent_hooks h0) (Hi0 : h_inh h0 = false) (Hf0 : h_inf h0 = false).

    Definition npages s : nat := (length (l_pages (t_life s)) - 1)%nat.

    Definition writing s : Prop :=
      t_hook s = h0 /\ (0 < length (l_pages (t_life s)))%nat /\ pageno s = npages s /\
      ((npages s <> 0%nat -> l_state (t_life s) = 2) /\ l_state (t_life s) < 3) /\ hf (t_log s) = opened h0 (npages s).
    Definition binv s : Prop := regs (t_hook s) = regs h0 /\ (failed s = false -> writing s).

    Lemma binv_hooks s : binv s -> hooks_ok plain s.
    Proof.
      intros [H _]. pose proof Hh0 as (H1 & H2 & H3 & H4).
      apply decent_hooks_ok. unfold regs in H. injection H as E1 E2 E3 E4 E5.
      split; [|split; [|split]]; [rewrite E1|rewrite E3|rewrite E4|rewrite E5]; assumption.
    Qed.

    Lemma writing_frame s s' : writing s -> frame s s' -> t_hook s' = t_hook s -> writing s'.
    Proof.
      intros (W1 & W2 & W3 & W4 & W5) (F1 & F2 & F3 & F4 & _) E. unfold writing, npages in *.
      rewrite E, F3, F4, F2, F1. auto.
    Qed.

    Lemma writing_turn n o w h s s' : writing s -> failed s = false ->
      add_page_format core_font (run core_font asm n) o w h s = Some s' -> failed s' = false -> writing s'.
    Proof.
      intros (W1 & W2 & W3 & W4 & W5) Hf H Hf'.
      destruct (turn_page core_font asm (run core_font asm n) o w h s s') as (T1 & T2 & T3 & T4 & T5 & _ & _); auto.
      { rewrite W1. now apply decent_tame_hooks. }
      { now rewrite W1. } { now rewrite W1. }
      unfold writing, npages in *. rewrite T1, T2, T4, T3. repeat split; auto; try lia; try discriminate.
      rewrite T5, W5, W1. destruct (length (l_pages (t_life s))) as [|[|m]] eqn:E; [lia|reflexivity|].
      replace (S (S (S m)) - 1)%nat with (S (S m)) by lia. replace (S (S m) - 1)%nat with (S m) by lia.
      cbn [Nat.eqb opened]. now rewrite app_assoc.
    Qed.

    Lemma binv_exec n : forall c s s', body c = true -> binv s -> exec core_font asm n c s = Some s' -> binv s'.
    Proof.
      induction n as [|n IH]; [discriminate|]. intros c s s' Hb Hi H.
      pose proof (body_plain _ Hb) as Hp.
      assert (Hc : okc plain c) by (destruct c; try discriminate Hb; (split; [exact Hp|exact I])).
      pose proof (exec_keep _ _ _ _ Hc (binv_hooks _ Hi) H) as (_ & K1 & K2).
      destruct Hi as [Hr Hw]. split; [congruence|]. intros Hf'.
      destruct (failed s) eqn:Hf; [specialize (K2 eq_refl); congruence|]. specialize (Hw eq_refl).
      cbn [exec] in H.
      assert (Hrun : forall p s b s', okp (fun c => body c = true) p -> binv s -> run core_font asm n p s = Some (b, s') -> binv s').
      { intros p. induction p as [b0|c0 k0 IHp]; intros s0 b s1 Hp0 Hi0' H0; cbn in H0.
        - injection H0 as <- <-. exact Hi0'.
        - destruct (exec core_font asm n c0 s0) as [s2|] eqn:E; [|discriminate]. destruct Hp0 as [Hc0 Hk0].
          apply okc_self in Hc0. eapply IHp; [apply Hk0| |exact H0]. eapply IH; eauto. }
      assert (Hbw : forall h b s1, break_wanted (run core_font asm n) h s = Some (b, s1) -> binv s1).
      { intros h b s1. unfold break_wanted, accept_break. cbv zeta.
        assert (B : binv s) by (split; [exact Hr|intros _; exact Hw]).
        destruct (_ && _ && _); [|intros [= _ <-]; exact B].
        destruct (h_accept (t_hook s)) as [p|] eqn:E; [|intros [= _ <-]; exact B].
        intros H1. eapply Hrun; [|exact B|exact H1]. destruct Hw as (W1 & _). rewrite W1 in E.
        destruct Hh0 as (_ & _ & _ & K). now apply K. }
      destruct (simple c) eqn:Es.
      { rewrite simple_step in H by exact Es.
        eapply writing_frame; [exact Hw| |].
        - eapply simple_frame; [exact Es| |exact H]. destruct c; try discriminate Hb; try discriminate Es; reflexivity.
        - eapply simple_hook; [exact Es| |exact H]. apply Hp. }
      destruct c; try discriminate Es; try discriminate Hb; cbn [step] in H.
      - unfold add_page in H. rewrite Hf in H. eapply writing_turn; eauto.
      - eapply writing_turn; eauto.
      - unfold cell_format in H. rewrite Hf in H.
        destruct (beqb _ _); [injection H as <-; discriminate Hf'|]. cbv zeta in H.
        destruct (cell_break _ _ _ _) as [[s1 g]|] eqn:E1; [|discriminate].
        assert (H1 : failed s1 = false -> writing s1).
        { revert E1. unfold cell_break. destruct (break_wanted _ _ _) as [[[|] s2]|] eqn:E2; [| |discriminate].
          - pose proof (Hbw _ _ _ E2) as [_ B2]. cbv zeta. set (pos := nlt _ _ _).
            set (s3 := if pos then emit _ _ else s2).
            assert (B3 : failed s3 = failed s2 /\ (failed s2 = false -> writing s3)).
            { unfold s3. destruct pos; [|auto]. rewrite emit_failed. split; [reflexivity|].
              intros F2. eapply writing_frame; [exact (B2 F2)|eapply frame_trans; [apply frame_geo|apply frame_emit]|].
              now rewrite emit_hook. }
            clearbody s3. destruct B3 as [B3 B4].
            destruct (add_page_format _ _ _ _ _ _) as [s4|] eqn:E4; [|discriminate].
            destruct (failed s4) eqn:F4; [intros [= <- _]; congruence|].
            intros [= <- _] _.
            assert (F3 : failed s3 = false).
            { destruct (failed s3) eqn:F3; [|reflexivity]. unfold add_page_format in E4. rewrite F3 in E4. injection E4 as <-. congruence. }
            assert (W4 : writing s4) by (eapply writing_turn; [apply B4; congruence|exact F3|exact E4|exact F4]).
            destruct pos.
            + eapply writing_frame; [exact W4|eapply frame_trans; [apply frame_geo|eapply frame_trans; [apply frame_geo|apply frame_emit]]|].
              now rewrite emit_hook.
            + eapply writing_frame; [exact W4|apply frame_geo|reflexivity].
          - intros [= <- _]. now apply (Hbw _ _ _ E2). }
        destruct g; injection H as <-; [|now apply H1].
        rewrite cell_body_failed in Hf'. eapply writing_frame; [now apply H1|apply frame_cell|apply cell_body_hook].
      - unfold image_out in H. destruct (image_size _ _ _ _ _ _) as [w' h'].
        destruct flow.
        2: { injection H as <-. eapply writing_frame; [exact Hw|apply frame_image|apply image_place_hook]. }
        destruct (break_wanted _ _ _) as [[b s1]|] eqn:E1; [|discriminate].
        pose proof (Hbw _ _ _ E1) as [_ B1].
        destruct (if b then _ else _) as [[s2 g]|] eqn:E2; [|discriminate].
        assert (B2 : failed s2 = false -> writing s2).
        { destruct b; [|injection E2 as <- _; exact B1].
          cbv zeta in E2. destruct (add_page_format _ _ _ _ _ _) as [s3|] eqn:E3; [|discriminate].
          destruct (failed s3) eqn:F3; injection E2 as <- _; [congruence|]. intros _.
          assert (F1 : failed s1 = false).
          { destruct (failed s1) eqn:F1; [|reflexivity]. unfold add_page_format in E3. rewrite F1 in E3. injection E3 as <-. congruence. }
          eapply writing_frame; [eapply writing_turn; [exact (B1 F1)|exact F1|exact E3|exact F3]|apply frame_geo|reflexivity]. }
        destruct g; injection H as <-; [|now apply B2].
        assert (F2 : failed s2 = false) by (unfold failed in Hf' |- *; rewrite image_place_errof in Hf'; exact Hf').
        eapply writing_frame; [exact (B2 F2)|eapply frame_trans; [apply frame_geo|apply frame_image]|].
        now rewrite image_place_hook.
    Qed.

    Lemma binv_run n p : forall s b s', okp (fun c => body c = true) p -> binv s -> run core_font asm n p s = Some (b, s') -> binv s'.
    Proof.
      induction p as [b0|c k IH]; intros s b s' Hp Hi H; cbn in H.
      - injection H as <- <-. exact Hi.
      - destruct (exec core_font asm n c s) as [s1|] eqn:E; [|discriminate]. destruct Hp as [Hc Hk].
        apply okc_self in Hc. eapply IH; [apply Hk| |exact H]. eapply binv_exec; eauto.
    Qed.

    (** Closing: one more page if there was none, the footer of the last page,
        and the assembled document appended to the buffer. *)
    Lemma close_facts n s s' : binv s -> exec core_font asm n Close s = Some s' -> failed s' = false ->
      l_state (t_life s') = 3 /\ npages s' = Nat.max 1 (npages s) /\
      hf (t_log s') = opened h0 (npages s') ++ foot_events h0 (npages s') true /\
      exists s2 b, asm s2 = Some (b, None) /\ npages s2 = npages s' /\ l_pages (t_life s') = l_pages (t_life s2) /\
        l_buf (t_life s') = l_buf (t_life s) ++ [CDoc b].
    Proof.
      intros Hi H Hf'. destruct n as [|n]; [discriminate|]. cbn [exec step] in H.
      assert (Hf : failed s = false).
      { destruct (failed s) eqn:F; [|reflexivity]. unfold close in H. rewrite F in H. cbv zeta in H. rewrite F in H. injection H as <-. congruence. }
      destruct Hi as [_ Hw]. specialize (Hw Hf). pose proof Hw as (_ & _ & _ & (_ & H3) & _).
      unfold close in H. rewrite Hf in H. cbv zeta in H.
      destruct (_ >? _); [injection H as <-; discriminate|].
      destruct (_ >? _); [injection H as <-; discriminate|].
      rewrite Hf in H. destruct (Z.eqb_spec (l_state (t_life s)) 3) as [E3|_]; [lia|].
      destruct (if on_page s then Some s else _) as [s1|] eqn:E1; [|discriminate].
      destruct (negb (on_page s) && failed s1) eqn:Eg.
      { apply andb_prop in Eg as [_ Eg]. injection H as <-. congruence. }
      destruct (run_footer _ true s1) as [s2|] eqn:E2; [|discriminate].
      assert (H1 : failed s1 = false /\ writing s1 /\ npages s1 = Nat.max 1 (npages s) /\ l_state (t_life s1) = 2 /\
                   l_buf (t_life s1) = l_buf (t_life s)).
      { pose proof Hw as (W1 & W2 & W3 & (W4 & _) & W5). unfold on_page in *. rewrite W3 in *.
        destruct (Nat.eqb_spec (npages s) 0) as [N|N]; cbn in E1, Eg.
        - unfold add_page in E1. rewrite Hf in E1. split; [exact Eg|].
          assert (W6 : writing s1) by (eapply writing_turn; eauto). split; [exact W6|].
          destruct (turn_page core_font asm (run core_font asm n) (x_defo (t_geo s)) (x_defw (t_geo s)) (x_defh (t_geo s)) s s1) as (T1 & T2 & T3 & T4 & T5 & T6 & _); auto.
          { rewrite W1. now apply decent_tame_hooks. } { now rewrite W1. } { now rewrite W1. }
          unfold npages in *. repeat split; auto; [lia|]. apply T6. right. lia.
        - injection E1 as <-. repeat split; auto; try lia; exact W2. }
      destruct H1 as (F1 & (W1 & W2 & W3 & (W4 & _) & W5) & N1 & S1 & B1).
      apply run_footer_frame in E2; [|rewrite W1; now apply decent_tame_hooks|now rewrite W1].
      destruct E2 as (D1 & D2 & D3 & D4 & D5 & D6 & D7 & D8).
      destruct (end_page_facts s2) as (G1 & G2 & G3 & (d & ly & G4) & G5 & G6 & G7 & G8).
      unfold end_doc in H. destruct (failed (end_page s2)) eqn:Fe; [injection H as <-; congruence|].
      destruct (asm (end_page s2)) as [[b [e|]]|] eqn:Ea; [injection H as <-; discriminate| |discriminate].
      injection H as <-.
      assert (N2 : npages (end_page s2) = Nat.max 1 (npages s)) by (unfold npages in *; rewrite G3, D3; exact N1).
      split; [reflexivity|]. split; [exact N2|]. split.
      - cbn [on_life st_life t_log sl_state]. rewrite G4, D4, !hf_app, W5, W1, W3, hf_foot. cbn [hf filter]. rewrite app_nil_r.
        change (npages (on_life _ _)) with (npages (end_page s2)). now rewrite N2, <- N1.
      - exists (end_page s2), b. repeat split; auto.
        change (l_buf (t_life (end_page s2)) ++ [CDoc b] = l_buf (t_life s) ++ [CDoc b]). rewrite G7, D6, B1; congruence.
    Qed.

    (** The first page does not touch the output buffer, whatever happens. *)
    Lemma first_page_buf n o w h s s' : t_hook s = h0 -> failed s = false -> length (l_pages (t_life s)) = 1%nat ->
      add_page_format core_font (run core_font asm n) o w h s = Some s' -> l_buf (t_life s') = l_buf (t_life s).
    Proof.
      intros Hh Hf Hlen. unfold add_page_format. rewrite Hf. cbv zeta.
      destruct (start_page_facts s) as (B1 & B2 & _ & _ & B3 & B4 & _). rewrite Hf in B3. rewrite Hlen in B2. change (pageno (start_page s) = 0%nat) in B2.
      set (s1 := start_page s) in *. clearbody s1.
      unfold leave_page, on_page. rewrite B2. cbn [Nat.eqb negb].
      destruct (begin_page_facts core_font asm o w h s1 B3) as (G1 & _ & _ & _ & G5 & _).
      pose proof (begin_page_hook o w h s1) as Gh.
      set (s3 := begin_page o w h s1) in *. clearbody s3.
      pose proof (frame_open_page core_font (save_state s1) s3) as (O1 & _ & _ & _ & _ & _ & O7 & _).
      pose proof (open_page_hook core_font (save_state s1) s3) as Oh.
      destruct (open_page _ _ _) as [s4 [|]]; cbn [fst] in *; [|intros [= <-]; rewrite O7; congruence].
      destruct (run_header _ s4) as [s5|] eqn:E5; [|discriminate]. intros [= <-].
      assert (Eh : t_hook s4 = h0) by congruence.
      apply run_header_frame in E5; [|rewrite Eh; now apply decent_tame_hooks|now rewrite Eh].
      destruct E5 as (H1 & _ & _ & _ & _ & H6 & _).
      destruct (frame_put_back core_font (save_state s1) s5) as (_ & _ & _ & _ & _ & _ & D7 & _).
      rewrite D7, H6, O7; congruence.
    Qed.

    (** If Close fails for another reason than the assembly, nothing was added
        to the buffer. *)
    Lemma close_failed_buf n s s' : (forall s b e, asm s = Some (b, e) -> e = None) ->
      binv s -> failed s = false -> exec core_font asm n Close s = Some s' -> failed s' = true -> l_buf (t_life s') = l_buf (t_life s).
    Proof.
      intros Ha Hi Hf H Hf'. destruct n as [|n]; [discriminate|]. cbn [exec step] in H.
      destruct Hi as [_ Hw]. specialize (Hw Hf). pose proof Hw as (W1 & W2 & W3 & (W4 & H3) & W5).
      unfold close in H. rewrite Hf in H. cbv zeta in H.
      destruct (_ >? _); [injection H as <-; reflexivity|].
      destruct (_ >? _); [injection H as <-; reflexivity|].
      rewrite Hf in H. destruct (Z.eqb_spec (l_state (t_life s)) 3) as [E3|_]; [lia|].
      destruct (if on_page s then Some s else _) as [s1|] eqn:E1; [|discriminate].
      assert (B1 : l_buf (t_life s1) = l_buf (t_life s)).
      { unfold on_page in E1. destruct (Nat.eqb_spec (pageno s) 0) as [N|N]; cbn in E1; [|now injection E1 as <-].
        unfold add_page in E1. rewrite Hf in E1. eapply first_page_buf; [exact W1|exact Hf| |exact E1]. unfold npages in *. lia. }
      destruct (negb (on_page s) && failed s1) eqn:Eg; [injection H as <-; exact B1|].
      destruct (run_footer _ true s1) as [s2|] eqn:E2; [|discriminate].
      assert (H1 : t_hook s1 = h0 /\ l_state (t_life s1) = 2).
      { unfold on_page in *. rewrite W3 in *. destruct (Nat.eqb_spec (npages s) 0) as [N|N]; cbn in E1, Eg.
        - unfold add_page in E1. rewrite Hf in E1.
          destruct (turn_page core_font asm (run core_font asm n) (x_defo (t_geo s)) (x_defw (t_geo s)) (x_defh (t_geo s)) s s1) as (T1 & T2 & _); auto.
          { rewrite W1. now apply decent_tame_hooks. } { now rewrite W1. } { now rewrite W1. } split; congruence.
        - injection E1 as <-. auto. }
      destruct H1 as [V1 V2].
      apply run_footer_frame in E2; [|rewrite V1; now apply decent_tame_hooks|now rewrite V1].
      destruct E2 as (D1 & D2 & D3 & D4 & D5 & D6 & D7 & D8).
      destruct (end_page_facts s2) as (G1 & G2 & G3 & _ & G5 & G6 & G7 & G8).
      assert (B2 : l_buf (t_life (end_page s2)) = l_buf (t_life s)) by (rewrite G7, D6, B1; congruence).
      unfold end_doc in H. destruct (failed (end_page s2)) eqn:Fe; [injection H as <-; exact B2|].
      destruct (asm (end_page s2)) as [[b e]|] eqn:Ea; [|discriminate]. pose proof (Ha _ _ _ Ea) as ->. injection H as <-.
      change (failed (end_page s2) = true) in Hf'. congruence.
    Qed.
  End Body.
End Life.
