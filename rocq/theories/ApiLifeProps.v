(** C18, C19, C20 and C24: the life cycle of a document, its error and its
    header and footer functions, for every program over the API. *)
From Verif Require Import Base ApiModel ApiProofs ApiErr ApiQuiet ApiTurn ApiLife ApiInst.
From Coq Require Import String.
Local Open Scope string_scope.
Local Open Scope list_scope.
Local Open Scope Z_scope.

(** ** Specification *)
Section Spec.
  Context {A : arith}.

  (** every call the program itself makes, whatever the getters return, is in P
      (nothing is said of the functions it registers) *)
  Fixpoint makes (P : call A -> Prop) (p : prog A) : Prop :=
    match p with
    | Done _ => True
    | Step c k => P c /\ forall o, makes P (k o)
    end.

  (** what may happen before the first page: anything that turns no page,
      finishes nothing and clears no error *)
  Definition preparation (c : call A) : Prop := simple c = true /\ quiet c = true /\ c <> ClearError.

  (** The calls of the header and footer functions of a finished document of N
      pages: for each page in turn its header, then its footer; a footer
      function with last-page indicator is told whether the page is page N. *)
  Definition expected_calls (h : @hooks A) (N : nat) : list (@event A) :=
    flat_map (fun i =>
      (match h_head h with Some _ => [EvHeader i] | None => [] end) ++
      (match h_foot h, h_footl h with
       | Some _, _ => [EvFooter i None]
       | None, Some _ => [EvFooter i (Some (Nat.eqb i N))]
       | None, None => []
       end)) (seq 1 N).

  (** header and footer calls recorded so far, with the number of the page that
      was current *)
  Definition hook_calls (s : st A) : list (@event A) :=
    filter (fun e => match e with EvHeader _ | EvFooter _ _ => true | _ => false end) (t_log s).
End Spec.

Section Props.
  Context {A : arith} (core_font : bytes -> bytes -> fontdef + bytes)
    (asm : st A -> option (bytes * option error)).
  Notation run := (run core_font asm).
  Notation exec := (exec core_font asm).

  Lemma makes_body (p : prog A) : makes (fun c => body c = true) p -> okp (fun c => body c = true) p.
  Proof.
    induction p as [b|c k IH]; [intros; exact I|]. intros [H1 H2]. split; [|intros o; apply IH, H2].
    destruct c; try discriminate H1; (split; [exact H1|exact I]).
  Qed.

  Lemma prepared_inv n k o w h m p b s : makes preparation p -> run n p (init (A := A) k o w h m) = Some (b, s) ->
    decent_hooks (t_hook s) -> binv (t_hook s) s /\ h_inh (t_hook s) = false /\ h_inf (t_hook s) = false.
  Proof.
    intros Hp H Hd.
    assert (F : frame (init (A := A) k o w h m) s).
    { revert b s Hp H Hd. generalize (init (A := A) k o w h m) as s0. induction p as [b0|c kk IH]; intros s0 b s Hp H Hd; cbn in H.
      - injection H as <- <-. apply frame_refl.
      - destruct Hp as [(H1 & H2 & H3) Hk].
        destruct (exec n c s0) as [s1|] eqn:E; [|discriminate]. destruct n as [|n]; [discriminate E|]. cbn [ApiModel.exec] in E.
        rewrite simple_step in E by exact H1.
        eapply frame_trans; [eapply simple_frame; eauto|]. eapply IH; [apply Hk|exact H|exact Hd]. }
    destruct F as (F1 & F2 & F3 & F4 & F5 & F6 & _). unfold init in F1, F2, F3, F4, F5, F6.
    destruct (if beqb o (bs "P") then (w, h) else (h, w)) as [pw ph]. cbn in *.
    split; [|split; assumption]. split; [reflexivity|]. intros _. unfold writing, npages.
    rewrite F1, F2, F3, F4. cbn. repeat split; auto; try lia; try discriminate.
  Qed.

  Lemma expected_opened (h : @hooks A) N : (0 < N)%nat -> opened h N ++ foot_events h N true = expected_calls h N.
  Proof.
    intros HN. destruct N as [|N]; [lia|]. clear HN. unfold expected_calls.
    enough (E : forall M, (M <= N)%nat -> opened h (S M) = flat_map (fun i => head_events h i ++ foot_events h i (Nat.eqb i (S N))) (seq 1 M) ++ head_events h (S M)).
    { rewrite (E N (le_n _)). rewrite seq_S, flat_map_app. cbn [flat_map app Nat.add]. rewrite app_nil_r, <- app_assoc. f_equal.
      unfold head_events, foot_events. cbn. now rewrite Nat.eqb_refl. }
    induction M as [|M IH]; intros HM.
    - reflexivity.
    - change (opened h (S (S M))) with ((opened h (S M) ++ foot_events h (S M) false) ++ head_events h (S (S M))).
      f_equal. rewrite seq_S, flat_map_app. cbn [flat_map Nat.add]. rewrite app_nil_r, IH by lia. rewrite <- app_assoc.
      do 2 f_equal. replace (Nat.eqb (S M) (S N)) with false; [reflexivity|]. symmetry. apply Nat.eqb_neq. lia.
  Qed.

  Lemma hook_calls_hf (s : st A) : hook_calls s = filter (fun e => match e with EvHeader _ | EvFooter _ _ => true | _ => false end) (hf (t_log s)).
  Proof.
    unfold hook_calls, hf. induction (t_log s) as [|e l IH]; [reflexivity|]. destruct e; cbn; rewrite IH; reflexivity.
  Qed.
  Lemma expected_only_calls (h : @hooks A) N :
    filter (fun e => match e with EvHeader _ | EvFooter _ _ => true | _ => false end) (expected_calls h N) = expected_calls h N /\
    flat_map (fun e => match e with EvWrote l => [l] | _ => [] end) (expected_calls h N) = [].
  Proof.
    unfold expected_calls. generalize (seq 1 N). intros l. induction l as [|i l [IH1 IH2]]; [split; reflexivity|].
    cbn [flat_map]. rewrite !filter_app, !flat_map_app, IH1, IH2.
    destruct (h_head h), (h_foot h), (h_footl h); split; reflexivity.
  Qed.
  Lemma outputs_hf (s : st A) : outputs s = flat_map (fun e => match e with EvWrote l => [l] | _ => [] end) (hf (t_log s)).
  Proof. unfold outputs, hf. induction (t_log s) as [|e l IH]; [reflexivity|]. destruct e; cbn; rewrite IH; reflexivity. Qed.

  (** Everything that is known when a document has been prepared, written and
      closed. *)
  Lemma closed_facts n k o w h m setup b0 s0 p b1 s1 s2 :
    makes preparation setup -> run n setup (init (A := A) k o w h m) = Some (b0, s0) ->
    decent_hooks (t_hook s0) ->
    makes (fun c => body c = true) p -> run n p s0 = Some (b1, s1) ->
    exec n Close s1 = Some s2 -> failed s2 = false ->
    l_state (t_life s2) = 3 /\ npages s2 = Nat.max 1 (npages s1) /\
    hf (t_log s2) = expected_calls (t_hook s0) (npages s2) /\
    exists s' b, asm s' = Some (b, None) /\ npages s' = npages s2 /\ l_pages (t_life s2) = l_pages (t_life s') /\
      l_buf (t_life s2) = l_buf (t_life s1) ++ [CDoc b].
  Proof.
    intros Hs H0 Hd Hp H1 H2 Hf. apply makes_body in Hp.
    destruct (prepared_inv _ _ _ _ _ _ _ _ _ Hs H0 Hd) as (I0 & F1 & F2).
    pose proof (binv_run core_font asm (t_hook s0) Hd F1 F2 _ _ _ _ _ Hp I0 H1) as I1.
    destruct (close_facts core_font asm (t_hook s0) Hd F1 F2 _ _ _ I1 H2 Hf) as (C1 & C2 & C3 & C4).
    repeat split; auto. rewrite C3. apply expected_opened. lia.
  Qed.

  (** C24.  Prepare a document, registering any header and footer functions
      that turn no page themselves; write it with any program, whose cells and
      images may break pages automatically; close it.  If there is no error the
      functions were called once per page, in order, header first, and the
      last-page indicator was true for the last page only. *)
  Theorem C24_header_and_footer_once_per_page n k o w h m setup b0 s0 p b1 s1 s2 :
    makes preparation setup -> run n setup (init (A := A) k o w h m) = Some (b0, s0) ->
    decent_hooks (t_hook s0) ->
    makes (fun c => body c = true) p -> run n p s0 = Some (b1, s1) ->
    exec n Close s1 = Some s2 -> failed s2 = false ->
    hook_calls s2 = expected_calls (t_hook s0) (npages s2).
  Proof.
    intros Hs H0 Hd Hp H1 H2 Hf.
    destruct (closed_facts _ _ _ _ _ _ _ _ _ _ _ _ _ Hs H0 Hd Hp H1 H2 Hf) as (_ & _ & E & _).
    rewrite hook_calls_hf, E. apply expected_only_calls.
  Qed.

  (** C18, first part.  Closing such a document gives it one page if it had
      none and leaves the number of pages alone otherwise; what is assembled is
      the document with exactly these pages, and it is appended to the output
      buffer once. *)
  Theorem C18_close_partial n k o w h m setup b0 s0 p b1 s1 s2 :
    makes preparation setup -> run n setup (init (A := A) k o w h m) = Some (b0, s0) ->
    decent_hooks (t_hook s0) ->
    makes (fun c => body c = true) p -> run n p s0 = Some (b1, s1) ->
    exec n Close s1 = Some s2 -> failed s2 = false ->
    npages s2 = Nat.max 1 (npages s1) /\
    exists s' b, asm s' = Some (b, None) /\ l_pages (t_life s') = l_pages (t_life s2) /\
      l_buf (t_life s2) = l_buf (t_life s1) ++ [CDoc b].
  Proof.
    intros Hs H0 Hd Hp H1 H2 Hf.
    destruct (closed_facts _ _ _ _ _ _ _ _ _ _ _ _ _ Hs H0 Hd Hp H1 H2 Hf) as (_ & E & _ & s' & b & E1 & _ & E2 & E3).
    split; [exact E|]. exists s', b. auto.
  Qed.

  (** Second part.  Close is idempotent: in any state whatsoever, if Close
      succeeds and no clipping or transformation context was left open by the
      last footer, closing again changes nothing. *)
  Theorem C18_close_idempotent_partial n s s' :
    exec n Close s = Some s' -> failed s' = false -> n_clip (t_nest s') <= 0 -> n_tran (t_nest s') <= 0 ->
    exec n Close s' = Some s'.
  Proof.
    intros H Hf Hc Ht. destruct n as [|n]; [discriminate|]. cbn [ApiModel.exec step] in *.
    assert (E3 : l_state (t_life s') = 3).
    { unfold close in H. destruct (failed s) eqn:F.
      { cbv zeta in H. rewrite F in H. injection H as <-. congruence. }
      cbv zeta in H. destruct (_ >? _); [injection H as <-; discriminate|].
      destruct (_ >? _); [injection H as <-; discriminate|]. rewrite F in H.
      destruct (Z.eqb_spec (l_state (t_life s)) 3) as [E|_]; [injection H as <-; exact E|].
      destruct (if on_page s then Some s else _) as [s1|]; [|discriminate].
      destruct (_ && _) eqn:Eg; [injection H as <-; apply andb_prop in Eg as [_ Eg]; congruence|].
      destruct (run_footer _ _ _) as [s2|]; [|discriminate]. unfold end_doc in H.
      destruct (failed (end_page s2)) eqn:Fe; [injection H as <-; congruence|].
      destruct (asm _) as [[b [e|]]|]; [|injection H as <-; reflexivity|discriminate].
      injection H as <-. discriminate. }
    unfold close. rewrite Hf. cbv zeta. replace (n_clip (t_nest s') >? 0) with false by lia.
    replace (n_tran (t_nest s') >? 0) with false by lia. rewrite Hf, E3. reflexivity.
  Qed.

  (** Third part.  If nothing was drawn before the first page, Output closes the
      document and writes exactly the assembled bytes; a second Output writes
      nothing more. *)
  Theorem C18_output_once_partial n k o w h m setup b0 s0 p b1 s1 s2 :
    makes preparation setup -> run n setup (init (A := A) k o w h m) = Some (b0, s0) ->
    decent_hooks (t_hook s0) ->
    makes (fun c => body c = true) p -> run n p s0 = Some (b1, s1) ->
    l_buf (t_life s1) = [] ->
    exec n (Output Full) s1 = Some s2 -> failed s2 = false ->
    npages s2 = Nat.max 1 (npages s1) /\
    (exists s' b, asm s' = Some (b, None) /\ l_pages (t_life s') = l_pages (t_life s2) /\ outputs s2 = [[CDoc b]]) /\
    (forall s3, exec n (Output Full) s2 = Some s3 -> outputs s3 = outputs s2 ++ [[]]).
  Proof.
    intros Hs H0 Hd Hp H1 Hb H2 Hf.
    destruct n as [|n]; [discriminate|]. cbn [ApiModel.exec step] in H2. unfold output in H2.
    destruct (failed s1) eqn:F1; [injection H2 as <-; congruence|].
    assert (H3 : l_state (t_life s1) <? 3 = true).
    { destruct (prepared_inv _ _ _ _ _ _ _ _ _ Hs H0 Hd) as (I0 & G1 & G2).
      pose proof (binv_run core_font asm (t_hook s0) Hd G1 G2 _ _ _ _ _ (makes_body _ Hp) I0 H1) as [_ I1].
      destruct (I1 F1) as (_ & _ & _ & (W1 & W2) & _). now apply Z.ltb_lt. }
    rewrite H3 in H2.
    destruct (close core_font asm (run_with (exec n)) s1) as [s2'|] eqn:E; [|discriminate]. cbn [option_map] in H2. injection H2 as Es. symmetry in Es.
    change (exec (S n) Close s1 = Some s2') in E.
    assert (Hf2 : failed s2' = false) by (rewrite Es in Hf; exact Hf).
    destruct (closed_facts _ _ _ _ _ _ _ _ _ _ _ _ _ Hs H0 Hd Hp H1 E Hf2) as (E0 & E1 & E2 & s' & b & E3 & _ & E4 & E5).
    rewrite Hb in E5. cbn [app] in E5.
    assert (E6 : outputs s2' = []) by (rewrite outputs_hf, E2; apply expected_only_calls).
    split; [rewrite Es; exact E1|]. split.
    - exists s', b. rewrite Es. repeat split; auto. unfold outputs in *. cbn. rewrite flat_map_app, E6, E5. reflexivity.
    - intros s3. pose proof Hf as G1.
      assert (G2 : l_state (t_life s2) = 3) by (rewrite Es; exact E0).
      assert (G3 : l_buf (t_life s2) = []) by (rewrite Es; reflexivity).
      cbn [ApiModel.exec step]. unfold output. rewrite G1, G2. cbn [Z.ltb Z.compare Pos.compare Pos.compare_cont option_map].
      intros [= <-]. unfold outputs. cbn. rewrite flat_map_app, G3. reflexivity.
  Qed.


  (** functions registered on the way stay within the allowed calls *)
  Lemma exec_hooks_ok (P : call A -> Prop) n c s s' : okc P c -> hooks_ok P s -> exec n c s = Some s' -> hooks_ok P s'.
  Proof.
    intros Hc Hh H. enough (R : reaches P (fun _ => True) (fun _ _ => True) s s') by apply R.
    eapply (exec_good core_font asm P (fun _ => True) (fun _ _ => True) (fun _ => True)); eauto.
  Qed.

  (** only Output and OutputFileAndClose write *)
  Definition not_writing (c : call A) : Prop :=
    match c with Output _ | OutputFileAndClose _ _ => False | _ => True end.
  Lemma exec_not_writing n c s s' : okc not_writing c -> hooks_ok not_writing s -> exec n c s = Some s' -> outputs s' = outputs s.
  Proof.
    intros Hc Hh H. enough (R : reaches not_writing (fun _ => True) (fun a b => outputs b = outputs a) s s') by apply R.
    eapply (exec_good core_font asm not_writing (fun _ => True) (fun a b => outputs b = outputs a) (fun _ => True)); eauto.
    { intros; congruence. }
    clear. intros s s' H _ _. split; [exact I|].
    assert (L : forall x y : st A, t_log y = t_log x -> outputs y = outputs x) by (intros x y E; unfold outputs; now rewrite E).
    assert (LE : forall (e : event) (x : st A), (forall l, e <> EvWrote l) -> outputs (log e x) = outputs x).
    { intros e x He. unfold outputs. cbn. rewrite flat_map_app. destruct e as [| |l|]; cbn; rewrite ?app_nil_r; try reflexivity. now destruct (He l). }
    destruct H; try (apply L; rewrite ?emit_log; reflexivity); try (apply LE; discriminate).
    - eapply simple_outputs; eauto.
    - unfold end_page, turn. transitivity (outputs (end_layer s)); [apply LE; discriminate|].
      apply L. unfold end_layer. destruct (n_layer _); cbn; rewrite ?emit_log; reflexivity.
    - rewrite !outputs_hf. now destruct (start_page_facts s) as (_ & _ & _ & -> & _).
    - transitivity (outputs (begin_page o w h s)); [apply L, frame_open_page|].
      unfold begin_page. destruct (failed s); [reflexivity|]. cbv zeta.
      transitivity (outputs (turn s)); [|apply LE; discriminate].
      apply L. unfold note_size. destruct (_ || _); reflexivity.
    - apply L, frame_put_back.
    - apply L. unfold end_doc in H0. destruct (failed s); [now injection H0 as <-|].
      destruct (asm s) as [[b [e|]]|]; [| |discriminate]; injection H0 as <-; reflexivity.
    - exfalso. destruct H as [[w0 []]|(c & w0 & [])].
    - apply L, frame_cell.
    - apply L, frame_image.
  Qed.

  Lemma hooks_not_writing h0 s : decent_hooks h0 -> binv h0 s -> hooks_ok not_writing s.
  Proof.
    intros (H1 & H2 & H3 & H4) [E _]. unfold regs in E. injection E as E1 _ E3 E4 E5.
    assert (D : forall c : call A, decent c -> not_writing c) by (intros c (Hq & _); destruct c; try exact I; discriminate Hq).
    assert (B : forall c : call A, body c = true -> not_writing c) by (intros c Hb; destruct c; try exact I; discriminate Hb).
    unfold hooks_ok. cbv zeta. rewrite E1, E3, E4, E5. split; [|split; [|split]].
    - intros p E. eapply okp_impl; [exact D|apply H1; exact E].
    - intros p E. eapply okp_impl; [exact D|apply H2; exact E].
    - intros p b E. eapply okp_impl; [exact D|apply H3; exact E].
    - intros p E. eapply okp_impl; [exact B|apply H4; exact E].
  Qed.

  (** C19.  Whatever calls are made, on a state with an error, the error is the
      one reported afterwards, if neither the program nor any function it has
      registered clears it or calls one of TransformEnd, TransformScale,
      TransformSkew and SetPageBoxRec, which assign the error unconditionally. *)
  Theorem C19_first_error_wins_partial n p s b s' e :
    okp (fun c => overwrites c = false) p -> hooks_ok (fun c => overwrites c = false) s ->
    errof s = Some e -> run n p s = Some (b, s') -> errof s' = Some e.
  Proof.
    revert p s b s' e. induction n as [|n IHn]; intros p; induction p as [b0|c k IH]; intros s b s' e Hp Hh He H; cbn in H;
      try (injection H as <- <-; exact He); try discriminate.
    destruct Hp as [Hc Hk]. destruct (step _ _ _ c s) as [s1|] eqn:E; [|discriminate].
    eapply IH; [apply Hk| |eapply step_errof; [exact IHn|exact Hh|exact (okc_self _ _ Hc)|exact He|exact E]|exact H].
    eapply (exec_hooks_ok _ (S n)); [exact Hc|exact Hh|exact E].
  Qed.

  (** C20, first part.  Once there is an error no call writes anything to any
      writer, whatever the program and the registered functions do short of
      ClearError, and the error does not go away. *)
  Theorem C20_silent_after_error n p s b s' :
    okp (fun c => c <> ClearError) p -> hooks_ok (fun c => c <> ClearError) s ->
    failed s = true -> run n p s = Some (b, s') -> failed s' = true /\ outputs s' = outputs s.
  Proof.
    revert p s b s'. induction n as [|n IHn]; intros p; induction p as [b0|c k IH]; intros s b s' Hp Hh He H; cbn in H;
      try (injection H as <- <-; auto); try discriminate.
    destruct Hp as [Hc Hk]. destruct (step _ _ _ c s) as [s1|] eqn:E; [|discriminate].
    assert (H1 : failed s1 = true /\ outputs s1 = outputs s).
    { eapply step_silent; [exact IHn|exact Hh| |exact He|exact E]. exact (okc_self _ _ Hc). }
    destruct H1 as [F1 O1]. rewrite <- O1. eapply IH; [apply Hk| |exact F1|exact H].
    eapply (exec_hooks_ok _ (S n)); [exact Hc|exact Hh|exact E].
  Qed.

  (** Second part.  If Output itself runs into an error other than one of the
      assembly (the footer, the header of the page it adds, a context left
      open), nothing is written, provided nothing was drawn before the first
      page. *)
  Theorem C20_failing_output_partial n k o w h m setup b0 s0 p b1 s1 s2 :
    makes preparation setup -> run n setup (init (A := A) k o w h m) = Some (b0, s0) ->
    decent_hooks (t_hook s0) ->
    makes (fun c => body c = true) p -> run n p s0 = Some (b1, s1) ->
    l_buf (t_life s1) = [] -> (forall s b e, asm s = Some (b, e) -> e = None) ->
    exec n (Output Full) s1 = Some s2 -> failed s2 = true ->
    List.concat (outputs s2) = List.concat (outputs s1).
  Proof.
    intros Hs H0 Hd Hp H1 Hb Ha H2 Hf.
    destruct (prepared_inv _ _ _ _ _ _ _ _ _ Hs H0 Hd) as (I0 & G1 & G2).
    pose proof (binv_run core_font asm (t_hook s0) Hd G1 G2 _ _ _ _ _ (makes_body _ Hp) I0 H1) as I1.
    destruct n as [|n]; [discriminate|]. cbn [ApiModel.exec step] in H2. unfold output in H2.
    destruct (failed s1) eqn:F1; [injection H2 as <-; reflexivity|].
    assert (H3 : l_state (t_life s1) <? 3 = true).
    { destruct I1 as [_ I1]. destruct (I1 F1) as (_ & _ & _ & (W1 & W2) & _). now apply Z.ltb_lt. }
    rewrite H3 in H2.
    destruct (close core_font asm (run_with (exec n)) s1) as [s2'|] eqn:E; [|discriminate].
    cbn [option_map] in H2. injection H2 as Es. symmetry in Es.
    change (exec (S n) Close s1 = Some s2') in E.
    assert (Hf2 : failed s2' = true) by (rewrite Es in Hf; exact Hf).
    pose proof (close_failed_buf core_font asm (t_hook s0) Hd G1 G2 _ _ _ Ha I1 F1 E Hf2) as Eb.
    assert (Eo : outputs s2' = outputs s1).
    { eapply exec_not_writing; [|eapply hooks_not_writing; [exact Hd|exact I1]|exact E]. split; exact I. }
    rewrite Es. unfold outputs in *. cbn. rewrite flat_map_app, Eo, Eb, Hb. cbn. rewrite concat_app. cbn. now rewrite app_nil_r.
  Qed.
End Props.

(** ** Examples: the hypotheses are met, and the full statements fail. *)

(** a header and a footer with text, the footer told about the last page *)
Definition head_ex : prog arithZ := calls [SetFont (bs "Arial") (bs "B") (12 : num arithZ); CellFormat (0 : num arithZ) (10 : num arithZ) (bs "top") [] 1 [] false 0 []].
Definition foot_ex (last : bool) : prog arithZ :=
  calls [SetY (-20 : num arithZ); CellFormat (0 : num arithZ) (10 : num arithZ) (if last then bs "end" else bs "more") [] 0 [] false 0 []].
Definition setup_ex : list (call arithZ) :=
  [SetFont (bs "Times") [] (12 : num arithZ); SetHeaderFunc (Some head_ex); SetFooterFuncLpi (Some foot_ex)].
Definition cell_ex : call arithZ := CellFormat (0 : num arithZ) (90 : num arithZ) (bs "text") (bs "1") 1 (bs "C") false 0 [].

Lemma decent_ex s : run_ex setup_ex = Some s -> decent_hooks (t_hook s).
Proof.
  assert (E : option_map t_hook (run_ex setup_ex) = Some (mk_hooks (Some head_ex) false None (Some foot_ex) None false false)) by (vm_cast_no_check (@eq_refl (option (@hooks arithZ)) (Some (mk_hooks (Some head_ex) false None (Some foot_ex) None false false)))).
  intros H. rewrite H in E. injection E as ->. split; [|split; [|split]]; cbn [h_head h_foot h_footl h_accept]; try discriminate.
  - intros p [= <-]. cbn. repeat split; discriminate.
  - intros p b [= <-]. destruct b; cbn; repeat split; discriminate.
Qed.

(** plain views of events and of what was written *)
Definition show_event {A} (e : @event A) : bool * nat * option bool :=
  match e with EvHeader p => (true, p, None) | EvFooter p l => (false, p, l) | _ => (false, O, None) end.
Definition show_chunk {A} (c : @chunk A) : bytes :=
  match c with CDoc b => b | COp (Paint what _) => bs "op " ++ what | COp _ => bs "op" end.
Definition written {A} (s : st A) : list (list bytes) := map (map show_chunk) (outputs s).

(** four cells of 90 on pages of 300: an automatic break happens *)
Definition body_ex : list (call arithZ) := [AddPage; cell_ex; cell_ex; cell_ex; cell_ex].
Example C24_example :
  after (setup_ex ++ body_ex ++ [Close]) (fun s => (failed s, npages s, map show_event (hook_calls s))) =
  Some (false, 2%nat, [(true, 1%nat, None); (false, 1%nat, Some false); (true, 2%nat, None); (false, 2%nat, Some true)]).
Proof. vm_compute. reflexivity. Qed.
Example C24_programs_ok : makes preparation (calls setup_ex) /\ makes (fun c => body c = true) (calls body_ex).
Proof. cbn. repeat split; try discriminate; intros; repeat split; discriminate. Qed.

(** With SetPage the footer runs twice on a page and never on another. *)
Example C24_setpage :
  after (setup_ex ++ [AddPage; AddPage; SetPage 1; Close]) (fun s => (failed s, map show_event (hook_calls s))) =
  Some (false, [(true, 1%nat, None); (false, 1%nat, Some false); (true, 2%nat, None); (false, 1%nat, Some true)]).
Proof. vm_compute. reflexivity. Qed.

(** C18 in full is false: drawing after Close is appended to the document,
    AddPage after Close reopens it, so that Output writes two documents, and a
    footer that leaves a clipping context open makes a second Close fail. *)
Theorem C18_nothing_after_close_refuted :
  after [AddPage; Close; Draw (bs "re f") []; Output Full] (fun s => (failed s, written s)) =
  Some (false, [[bs "%PDF pages 1"; bs "op re f"]]).
Proof. vm_compute. reflexivity. Qed.
Theorem C18_reopened_refuted :
  after [AddPage; Close; AddPage; Output Full] (fun s => (failed s, npages s, written s)) =
  Some (false, 2%nat, [[bs "%PDF pages 1"; bs "%PDF pages 2"]]).
Proof. vm_compute. reflexivity. Qed.
Theorem C18_idempotent_refuted :
  after [SetFooterFunc (Some (calls [ClipBegin (bs "re W n") []])); AddPage; Close] errof = Some None /\
  after [SetFooterFunc (Some (calls [ClipBegin (bs "re W n") []])); AddPage; Close; Close] errof = Some (Some EClipOpen).
Proof. split; vm_compute; reflexivity. Qed.

(** C19 in full is false: each of these calls replaces an earlier error. *)
Theorem C19_first_error_wins_refuted :
  map (fun c => after [AddPage; SetError (EUser (bs "first")); c] errof)
    [TransformEnd; TransformScale (A := arithZ) 0 100 0 0; TransformSkew (A := arithZ) 90 0 0 0; SetPageBoxRec (bs "nobox")] =
  map (fun e => Some (Some e)) [ETransSeq; EScale; ESkew; EPageBox (bs "nobox")].
Proof. vm_compute. reflexivity. Qed.
Example C19_example :
  after [AddPage; SetError (EUser (bs "first")); ClipEnd; SetAlpha (A := arithZ) 5 []; AddPage; Output Full] errof =
  Some (Some (EUser (bs "first"))).
Proof. vm_compute. reflexivity. Qed.

(** C20 in full is false: what was drawn before the first page is written even
    though Output fails, and so is what the assembly produced before it failed. *)
Theorem C20_no_bytes_refuted :
  after [Draw (bs "re f") []; AddPage; ClipBegin (bs "re W n") []; Output Full] (fun s => (errof s, written s)) =
  Some (Some EClipOpen, [[bs "op re f"]]).
Proof. vm_compute. reflexivity. Qed.
Theorem C20_failed_assembly_refuted :
  option_map (fun x => (errof (snd x), written (snd x)))
    (run fonts_ex (fun _ => Some (bs "%PDF half", Some (EAssemble (bs "no such file")))) 9 (calls [AddPage; Output Full]) doc_ex) =
  Some (Some (EAssemble (bs "no such file")), [[bs "%PDF half"]]).
Proof. vm_compute. reflexivity. Qed.
Example C20_example :
  after [AddPage; ClipBegin (bs "re W n") []; Output Full] (fun s => (errof s, written s)) = Some (Some EClipOpen, [[]]).
Proof. vm_compute. reflexivity. Qed.

Print Assumptions C24_header_and_footer_once_per_page.
Print Assumptions C18_output_once_partial.
Print Assumptions C18_close_idempotent_partial.
Print Assumptions C19_first_error_wins_partial.
Print Assumptions C20_silent_after_error.
Print Assumptions C20_failing_output_partial.
