(** C25 and C26: automatic page breaks and the movement of the cursor. *)
From Verif Require Import Base TextModel ApiModel ApiProofs ApiErr ApiQuiet ApiTurn ApiLife ApiKeep ApiInst ApiKeepProps ApiBreak.
From Coq Require Import String.
Local Open Scope string_scope.
Local Open Scope list_scope.
Local Open Scope Z_scope.

(** ** Specification *)
Section Spec.
  Context {A : arith} (core_font : bytes -> bytes -> fontdef + bytes)
    (asm : st A -> option (bytes * option error)).
  Implicit Types s : st A.

  (** something of height h does not fit between the cursor and the bottom
      margin of the page, and neither the header nor the footer is running *)
  Definition too_low (h : num A) s : Prop :=
    let g := t_geo s in
    nlt A (nsub A (x_h g) (x_bm g)) (nadd A (x_y g) h) = true /\ h_inh (t_hook s) = false /\ h_inf (t_hook s) = false.

  (** the page break function answers b in state s and leaves state s1: the
      registered one, or else the setting of SetAutoPageBreak *)
  Definition answers (n : nat) s (b : bool) s1 : Prop :=
    match h_accept (t_hook s) with
    | None => b = x_auto (t_geo s) /\ s1 = s
    | Some p => run core_font asm n p s = Some (b, s1)
    end.

  (** what a page break function may do here: anything but turn a page, put
      cells or flowing images, finish the document, register functions or clear the error *)
  Definition looks (c : call A) : Prop := simple c = true /\ quiet c = true /\ registers c = false /\ c <> ClearError.
  Definition mild_hooks (h : @hooks A) : Prop :=
    (forall p, h_head h = Some p -> okp decent p) /\
    (forall p, h_foot h = Some p -> okp decent p) /\
    (forall p b, h_footl h = Some p -> okp decent (p b)) /\
    (forall p, h_accept h = Some p -> okp looks p).

  Definition pages s : nat := (List.length (l_pages (t_life s)) - 1)%nat.
  Definition ops_of s (i : nat) : list (op A) := match nth_error (l_pages (t_life s)) i with Some pg => p_ops pg | None => [] end.
  (** the last word spacing set on a page *)
  Definition word_spacing (l : list (op A)) : option (num A) :=
    fold_left (fun v o => match o with Tw w => Some w | _ => v end) l None.
  (** the page before was left, one page was added, it is the current one, and
      all pages but the last and the one that was current are as they were *)
  Definition one_more_page s s' : Prop :=
    pages s' = S (pages s) /\ pageno s' = pages s' /\
    (forall i, (i < pages s)%nat -> i <> pageno s -> nth_error (l_pages (t_life s')) i = nth_error (l_pages (t_life s)) i).
  Definition same_page s s' : Prop :=
    pages s' = pages s /\ pageno s' = pageno s /\
    (forall i, i <> pageno s -> nth_error (l_pages (t_life s')) i = nth_error (l_pages (t_life s)) i).
End Spec.

Section Props.
  Context {A : arith} (core_font : bytes -> bytes -> fontdef + bytes)
    (asm : st A -> option (bytes * option error)).
  Notation run := (run core_font asm).
  Notation exec := (exec core_font asm).
  Implicit Types s : st A.

  Lemma looks_run n p s b s' : okp looks p -> run n p s = Some (b, s') -> frame s s' /\ t_hook s' = t_hook s /\ (failed s = true -> failed s' = true).
  Proof.
    revert s b s'. induction p as [b0|c k IH]; intros s b s' Hp H; cbn in H.
    - injection H as <- <-. repeat split; auto.
    - destruct Hp as [Hc Hk]. apply okc_self in Hc. destruct Hc as (C1 & C2 & C3 & C4).
      destruct (exec n c s) as [s1|] eqn:E; [|discriminate]. destruct n as [|n]; [discriminate E|]. cbn [exec] in E.
      rewrite simple_step in E by exact C1.
      destruct (IH _ _ _ _ (Hk _) H) as (F & T & K).
      split; [eapply frame_trans; [eapply simple_frame; eauto|exact F]|]. split.
      + rewrite T. eapply simple_hook; eauto.
      + intros Hf. apply K. eapply simple_failed; eauto.
  Qed.

  Lemma mild_tame n h : mild_hooks h -> tame_hooks (run n) h.
  Proof. intros (H1 & H2 & H3 & _). repeat split; intros; eapply decent_tame; eauto. Qed.

  (** the page break function, when it is asked *)
  Lemma break_wanted_cases n h s b s1 : trig_ok s -> mild_hooks (t_hook s) -> break_wanted (run n) h s = Some (b, s1) ->
    (too_low h s /\ answers core_font asm n s b s1 /\ frame s s1 /\ t_hook s1 = t_hook s /\ (failed s = true -> failed s1 = true)) \/
    (~ too_low h s /\ b = false /\ s1 = s).
  Proof.
    intros HT (_ & _ & _ & HA). unfold break_wanted, too_low. cbv zeta. rewrite HT.
    destruct (nlt A _ _) eqn:E1; cbn [andb].
    2: { intros [= <- <-]. right. repeat split. intros (K & _). discriminate. }
    destruct (h_inh (t_hook s)) eqn:E2; cbn [negb andb].
    { intros [= <- <-]. right. repeat split. intros (_ & K & _). discriminate. }
    destruct (h_inf (t_hook s)) eqn:E3; cbn [negb andb].
    { intros [= <- <-]. right. repeat split. intros (_ & _ & K). discriminate. }
    unfold accept_break, answers. destruct (h_accept (t_hook s)) as [p|] eqn:E.
    - intros H. left. destruct (looks_run _ _ _ _ _ (HA _ eq_refl) H) as (F1 & F2 & F3). auto 10.
    - intros [= <- <-]. left. repeat split; auto.
  Qed.

  Lemma frame_pages s s' : frame s s' -> same_page s s'.
  Proof. intros (_ & F2 & F3 & _ & _ & _ & _ & F8). unfold same_page, pages. rewrite F2, F3. auto. Qed.
  Lemma same_page_trans (a b c : st A) : same_page a b -> same_page b c -> same_page a c.
  Proof.
    intros (A1 & A2 & A3) (B1 & B2 & B3). unfold same_page. rewrite B1, B2, A1, A2. repeat split.
    intros i Hi. rewrite B3, A3; congruence.
  Qed.

  Lemma turned n o w h s s' : mild_hooks (t_hook s) -> h_inh (t_hook s) = false -> h_inf (t_hook s) = false ->
    (0 < List.length (l_pages (t_life s)))%nat ->
    add_page_format core_font (run n) o w h s = Some s' -> failed s' = false ->
    one_more_page s s' /\ l_state (t_life s') = 2 /\ failed s = false /\ List.length (l_pages (t_life s')) = S (pageno s').
  Proof.
    intros Hm H1 H2 Hl H Hf'.
    assert (Hf : failed s = false).
    { destruct (failed s) eqn:F; [|reflexivity]. unfold add_page_format in H. rewrite F in H. injection H as <-. congruence. }
    destruct (turn_page _ asm _ _ _ _ _ _ (mild_tame n _ Hm) H1 H2 Hf Hl H Hf') as (_ & T2 & T3 & T4 & _ & _ & T7).
    unfold one_more_page, pages. rewrite T3, T4. repeat split; auto; try lia.
    intros i Hi _. apply T7. lia.
  Qed.

  Lemma word_spacing_app l1 l2 : (forall o, In o l2 -> match o with Tw _ => False | _ => True end) ->
    word_spacing (l1 ++ l2) = word_spacing (A := A) l1.
  Proof.
    intros H. unfold word_spacing. rewrite fold_left_app. generalize (fold_left (fun (v : option (num A)) o => match o with Tw w => Some w | _ => v end) l1 None) as v.
    induction l2 as [|o l2 IH]; intros v; [reflexivity|]. cbn. pose proof (H o (or_introl eq_refl)). destruct o; try contradiction; apply IH; intros o' Ho; apply H; now right.
  Qed.
  Lemma word_spacing_last l v : word_spacing (l ++ [Tw v]) = Some (v : num A).
  Proof. unfold word_spacing. now rewrite fold_left_app. Qed.

  Lemma emit_ops l s i : l_state (t_life s) = 2 -> (pageno s < List.length (l_pages (t_life s)))%nat ->
    ops_of (emit l s) i = ops_of s i ++ (if Nat.eqb i (pageno s) then l else []).
  Proof.
    intros H2 Hl. unfold ops_of, emit. rewrite H2. cbn -[upd]. destruct (Nat.eqb_spec i (pageno s)) as [->|N].
    - destruct (nth_error (l_pages (t_life s)) (pageno s)) as [pg|] eqn:E; [|apply nth_error_None in E; lia].
      rewrite (nth_error_upd_eq _ _ _ _ E). reflexivity.
    - rewrite nth_error_upd by exact N. now rewrite app_nil_r.
  Qed.
  Lemma link_ops a b c d e f s i : ops_of (new_link a b c d e f s) i = ops_of s i.
  Proof.
    unfold ops_of, new_link. cbn -[upd]. destruct (Nat.eq_dec i (pageno s)) as [->|N].
    - destruct (nth_error (l_pages (t_life s)) (pageno s)) as [pg|] eqn:E.
      + rewrite (nth_error_upd_eq _ _ _ _ E). reflexivity.
      + rewrite (proj2 (nth_error_None _ _)); [reflexivity|]. rewrite length_upd. now apply nth_error_None.
    - now rewrite nth_error_upd by exact N.
  Qed.

  Lemma cell_ops_no_tw w h txt border fill align s o :
    In o (cell_box w h border fill s ++ (match txt with [] => [] | _ => cell_text w h txt align s end)) -> match o with Tw _ => False | _ => True end.
  Proof.
    intros H. apply in_app_or in H as [H|H].
    - revert H. unfold cell_box. cbv zeta.
      repeat match goal with |- context [if ?b then _ else _] => destruct b end; cbn; intuition; subst; exact I.
    - destruct txt; [destruct H|]. revert H. unfold cell_text. cbv zeta. destruct (g_flag _); cbn; intuition; subst; exact I.
  Qed.

  (** the cell itself draws on the current page only, and no word spacing *)
  Lemma cell_body_ops w h txt border ln align fill l u s : l_state (t_life s) = 2 -> (pageno s < List.length (l_pages (t_life s)))%nat ->
    exists ops, (forall o, In o ops -> match o with Tw _ => False | _ => True end) /\
      ops_of (cell_body w h txt border ln align fill l u s) (pageno s) = ops_of s (pageno s) ++ ops /\
      (fill = true -> border = [] -> txt = [] -> neq A w (ofZ A 0) = false ->
       ops = [Paint (bs "re f") [nmul A (x_x (t_geo s)) (x_k (t_geo s));
                 nmul A (nsub A (x_h (t_geo s)) (x_y (t_geo s))) (x_k (t_geo s)); nmul A w (x_k (t_geo s)); nmul A (nopp A h) (x_k (t_geo s))]]).
  Proof.
    intros H2 Hl. unfold cell_body. cbv zeta. set (w' := if neq A w _ then _ else w).
    set (ops := _ ++ _). exists ops. split; [intros o Ho; eapply cell_ops_no_tw; exact Ho|]. split.
    - clearbody ops. set (s1 := match txt with [] => s | _ => _ end).
      assert (E : l_state (t_life s1) = 2 /\ pageno s1 = pageno s /\ List.length (l_pages (t_life s1)) = List.length (l_pages (t_life s)) /\ ops_of s1 (pageno s) = ops_of s (pageno s)).
      { unfold s1. destruct txt; [auto|]. destruct (_ || _); [|auto]. rewrite nl_state, nl_pageno, nl_count, link_ops. auto. }
      destruct E as (E1 & E2 & E3 & E4). clearbody s1.
      transitivity (ops_of (match ops with [] => s1 | _ => emit ops s1 end) (pageno s)); [destruct (ln >? 0); reflexivity|].
      destruct ops as [|o ops]; [now rewrite app_nil_r|].
      rewrite emit_ops by (rewrite ?E2, ?E3; auto). now rewrite E2, Nat.eqb_refl, E4.
    - intros -> -> -> Hw. unfold ops, cell_box, w'. rewrite Hw. reflexivity.
  Qed.

  (** *** C25, cells.  In every state a program can reach, when the registered
      functions turn no page themselves and no error comes up: the cell starts
      a new page exactly if it is too low and the page break function agrees;
      then the page it was on is left as it is, the cell goes to the new page
      at the horizontal position it would have had, and the word spacing in
      force is set again on the new page. *)
  Theorem C25_cell n0 p0 k o w0 h0 m b0 s n w h txt border ln align fill l u s' :
    run n0 p0 (init (A := A) k o w0 h0 m) = Some (b0, s) ->
    mild_hooks (t_hook s) -> failed s = false -> fd_name (f_cur (t_fnt s)) <> [] ->
    exec (S n) (CellFormat w h txt border ln align fill l u) s = Some s' -> failed s' = false ->
    (too_low h s /\ exists s1, answers core_font asm n s true s1 /\ one_more_page s s' /\
       (ln <= 0 -> neq A w (ofZ A 0) = false -> x_x (t_geo s') = nadd A (x_x (t_geo s1)) w) /\
       (1 < ln -> x_x (t_geo s') = x_x (t_geo s1)) /\
       (nlt A (ofZ A 0) (x_ws (t_geo s1)) = true ->
          x_ws (t_geo s') = x_ws (t_geo s1) /\
          word_spacing (ops_of s' (pageno s')) = Some (nmul A (x_ws (t_geo s1)) (x_k (t_geo s1)))) /\
       (fill = true -> border = [] -> txt = [] -> neq A w (ofZ A 0) = false ->
          exists before y, ops_of s' (pageno s') = before ++
            [Paint (bs "re f") [nmul A (x_x (t_geo s1)) (x_k (t_geo s'));
                 nmul A (nsub A (x_h (t_geo s')) y) (x_k (t_geo s')); nmul A w (x_k (t_geo s')); nmul A (nopp A h) (x_k (t_geo s'))]])) \/
    (~ (too_low h s /\ exists s1, answers core_font asm n s true s1) /\ same_page s s').
  Proof.
    intros H0 Hm Hf Hfont H Hf'. cbn [ApiModel.exec step] in H.
    change (run_with (exec n)) with (run n) in H.
    pose proof (run_trig _ _ _ _ _ _ _ (init_trig k o w0 h0 m) H0) as HT.
    pose proof (pages_nonempty _ _ _ _ _ _ _ _ _ _ _ H0) as Hlen. clear H0.
    unfold cell_format in H. rewrite Hf in H.
    destruct (beqb (fd_name (f_cur (t_fnt s))) []) eqn:En; [apply beqb_eq in En; contradiction|]. cbv zeta in H.
    unfold cell_break in H.
    destruct (break_wanted _ _ _) as [[b s1]|] eqn:E1; [|discriminate].
    destruct (break_wanted_cases _ _ _ _ _ HT Hm E1) as [(HL & HA & F & HH & HX)|(HN & -> & ->)].
    2: { right. injection H as <-. split; [intros (K & _); contradiction|]. apply frame_pages, frame_cell. }
    destruct b.
    2: { right. injection H as <-. split.
         - intros (_ & s2 & K). unfold answers in HA, K. destruct (h_accept (t_hook s)); [congruence|]. destruct HA, K; congruence.
         - eapply same_page_trans; [apply frame_pages, F|apply frame_pages, frame_cell]. }
    left. split; [exact HL|]. exists s1. split; [exact HA|]. cbv zeta in H.
    set (pos := nlt A _ _) in *. set (s2 := if pos then emit _ _ else s1) in *.
    assert (P2 : frame s1 s2 /\ t_hook s2 = t_hook s1 /\ x_k (t_geo s2) = x_k (t_geo s1)).
    { unfold s2. destruct pos; [|repeat split; auto]. rewrite emit_hook, emit_geo. split; [|auto].
      eapply frame_trans; [apply frame_geo|apply frame_emit]. }
    clearbody s2. destruct P2 as (P2 & P3 & P4).
    destruct (add_page_format _ _ _ _ _ _) as [s3|] eqn:E3; [|discriminate].
    destruct (failed s3) eqn:F3; [injection H as <-; congruence|].
    pose proof (frame_trans _ _ _ F P2) as FR.
    assert (T : one_more_page s2 s3 /\ l_state (t_life s3) = 2 /\ failed s2 = false /\ List.length (l_pages (t_life s3)) = S (pageno s3)).
    { destruct HL as (_ & L1 & L2). eapply turned; [| | | |exact E3|exact F3]; rewrite ?P3, ?HH; auto.
      destruct FR as (_ & _ & K & _). rewrite K. lia. }
    destruct T as (T1 & T2 & T3 & T4).
    set (s4 := if pos then _ else _) in H.
    assert (Q : frame s3 s4 /\ x_x (t_geo s4) = x_x (t_geo s1) /\ (pos = true -> x_ws (t_geo s4) = x_ws (t_geo s1) /\ word_spacing (ops_of s4 (pageno s4)) = Some (nmul A (x_ws (t_geo s1)) (x_k (t_geo s1))))).
    { unfold s4. destruct pos.
      - rewrite emit_geo, emit_pageno. split; [eapply frame_trans; [apply frame_geo|eapply frame_trans; [apply frame_geo|apply frame_emit]]|].
        split; [reflexivity|]. intros _. split; [reflexivity|].
        rewrite emit_ops; [|exact T2|unfold pageno in *; cbn; lia]. rewrite Nat.eqb_refl. apply word_spacing_last.
      - split; [apply frame_geo|]. split; [reflexivity|]. discriminate. }
    clearbody s4. destruct Q as (Q1 & Q2 & Q3).
    assert (N4 : l_state (t_life s4) = 2 /\ (pageno s4 < List.length (l_pages (t_life s4)))%nat).
    { destruct Q1 as (K1 & K2 & K3 & _). rewrite K1, K2, K3. split; [exact T2|]. rewrite T4. lia. }
    destruct N4 as (N4 & N5). injection H as <-.
    destruct (cell_body_ops w h txt (upper border) ln align fill l u s4 N4 N5) as (ops & O1 & O2 & O3).
    destruct (cell_geo w h txt (upper border) ln align fill l u s4) as (w' & G & Gw).
    assert (PG : pageno (cell_body w h txt (upper border) ln align fill l u s4) = pageno s4).
    { destruct (frame_cell w h txt (upper border) ln align fill l u s4) as (_ & K & _). exact K. }
    split; [|split; [|split; [|split]]].
    - destruct (frame_pages _ _ (frame_cell w h txt (upper border) ln align fill l u s4)) as (C1 & C2 & C3).
      destruct (frame_pages _ _ Q1) as (D1 & D2 & D3). destruct (frame_pages _ _ FR) as (U1 & U2 & U3).
      destruct T1 as (V1 & V2 & V3). unfold one_more_page. rewrite C1, C2, D1, D2, V1, V2, V1, U1. repeat split.
      intros i Hi Ni. rewrite C3, D3, V3.
      + now apply U3.
      + rewrite U1. exact Hi.
      + now rewrite U2.
      + rewrite V2, V1, U1. lia.
      + rewrite D2, V2, V1, U1. lia.
    - intros Hln Hw. rewrite G. cbv zeta. destruct (Z.gtb_spec ln 0); [lia|]. cbn. rewrite Q2, Gw, Hw. reflexivity.
    - intros Hln. rewrite G. cbv zeta. destruct (Z.gtb_spec ln 0); [|lia]. destruct (Z.eqb_spec ln 1); [lia|]. cbn. exact Q2.
    - intros Hp. destruct (Q3 Hp) as [W1 W2]. split.
      + rewrite G. cbv zeta. destruct (ln >? 0); [destruct (ln =? 1)|]; cbn; exact W1.
      + rewrite PG, O2, word_spacing_app by exact O1. exact W2.
    - intros Hfi Hb Ht Hw. exists (ops_of s4 (pageno s4)), (x_y (t_geo s4)). rewrite PG, O2, (O3 Hfi); auto; [|now rewrite Hb].
      rewrite Q2. f_equal. f_equal. rewrite G. cbv zeta. destruct (ln >? 0); [destruct (ln =? 1)|]; reflexivity.
  Qed.

  (** *** C25, images in the flow.  The same, for the height the image has. *)
  Theorem C25_flowing_image n0 p0 k o w0 h0 m b0 s n iw ih dpi id x y w h negx l u s' :
    run n0 p0 (init (A := A) k o w0 h0 m) = Some (b0, s) ->
    mild_hooks (t_hook s) -> failed s = false ->
    exec (S n) (ImageOut iw ih dpi id x y w h negx true l u) s = Some s' -> failed s' = false ->
    let '(iw', ih') := image_size iw ih dpi (x_k (t_geo s)) w h in
    (too_low ih' s /\ exists s1, answers core_font asm n s true s1 /\ one_more_page s s' /\
       x_x (t_geo s') = x_x (t_geo s1) /\
       exists before y' x', ops_of s' (pageno s') = before ++
         [Save; Cm (nmul A iw' (x_k (t_geo s'))) (ofZ A 0) (ofZ A 0) (nmul A ih' (x_k (t_geo s')))
                   (nmul A x' (x_k (t_geo s'))) (nmul A (nsub A (x_h (t_geo s')) (nadd A y' ih')) (x_k (t_geo s')));
          Paint (bs "/I" ++ id ++ bs " Do") []; Restore] /\
         x_y (t_geo s') = nadd A y' ih' /\
         x' = (if negb negx && nlt A x (ofZ A 0) then x_x (t_geo s1) else x)) \/
    (~ (too_low ih' s /\ exists s1, answers core_font asm n s true s1) /\ same_page s s').
  Proof.
    intros H0 Hm Hf H Hf'. cbn [ApiModel.exec step] in H.
    change (run_with (exec n)) with (run n) in H.
    pose proof (run_trig _ _ _ _ _ _ _ (init_trig k o w0 h0 m) H0) as HT.
    pose proof (pages_nonempty _ _ _ _ _ _ _ _ _ _ _ H0) as Hlen. clear H0.
    unfold image_out in H. destruct (image_size _ _ _ _ _ _) as [w' h'].
    destruct (break_wanted _ _ _) as [[b s1]|] eqn:E1; [|discriminate].
    destruct (break_wanted_cases _ _ _ _ _ HT Hm E1) as [(HL & HA & F & HH & HX)|(HN & -> & ->)].
    2: { right. injection H as <-. split; [intros (K & _); contradiction|].
         apply frame_pages. eapply frame_trans; [apply frame_geo|apply frame_image]. }
    destruct b.
    2: { right. injection H as <-. split.
         - intros (_ & s2 & K). unfold answers in HA, K. destruct (h_accept (t_hook s)); [congruence|]. destruct HA, K; congruence.
         - eapply same_page_trans; [apply frame_pages, F|]. apply frame_pages. eapply frame_trans; [apply frame_geo|apply frame_image]. }
    left. split; [exact HL|]. exists s1. split; [exact HA|]. cbv zeta in H.
    destruct (add_page_format _ _ _ _ _ _) as [s3|] eqn:E3; [|discriminate].
    destruct (failed s3) eqn:F3; [injection H as <-; congruence|].
    assert (T : one_more_page s1 s3 /\ l_state (t_life s3) = 2 /\ failed s1 = false /\ List.length (l_pages (t_life s3)) = S (pageno s3)).
    { destruct HL as (_ & L1 & L2). eapply turned; [| | | |exact E3|exact F3]; rewrite ?HH; auto.
      destruct F as (_ & _ & K & _). rewrite K. lia. }
    destruct T as (T1 & T2 & T3 & T4). injection H as <-.
    set (y' := x_y (t_geo s3)).
    set (s4 := on_geo (fun g => sx_y (nadd A (x_y g) h') g) (on_geo (sx_x (x_x (t_geo s1))) s3)).
    assert (Q1 : frame s3 s4) by (eapply frame_trans; apply frame_geo).
    assert (N4 : l_state (t_life s4) = 2) by exact T2.
    assert (N5 : (pageno s4 < List.length (l_pages (t_life s4)))%nat) by (unfold pageno in *; cbn; lia).
    assert (X4 : x_x (t_geo s4) = x_x (t_geo s1)) by reflexivity.
    assert (Y4 : x_y (t_geo s4) = nadd A y' h') by reflexivity.
    clearbody s4 y'.
    assert (PG : pageno (image_place id x y' w' h' negx l u s4) = pageno s4).
    { destruct (frame_image id x y' w' h' negx l u s4) as (_ & K & _). exact K. }
    assert (OP : ops_of (image_place id x y' w' h' negx l u s4) (pageno s4) = ops_of s4 (pageno s4) ++
      [Save; Cm (nmul A w' (x_k (t_geo s4))) (ofZ A 0) (ofZ A 0) (nmul A h' (x_k (t_geo s4)))
                   (nmul A (if negx then x else if nlt A x (ofZ A 0) then x_x (t_geo s4) else x) (x_k (t_geo s4))) (nmul A (nsub A (x_h (t_geo s4)) (nadd A y' h')) (x_k (t_geo s4)));
          Paint (bs "/I" ++ id ++ bs " Do") []; Restore]).
    { unfold image_place. cbv zeta. set (xx := if negx then x else _). clearbody xx.
      destruct (_ || _); rewrite ?link_ops, emit_ops by auto; now rewrite Nat.eqb_refl. }
    rewrite PG, OP, image_place_geo.
    split; [|split; [exact X4|]].
    - destruct (frame_pages _ _ (frame_image id x y' w' h' negx l u s4)) as (C1 & C2 & C3).
      destruct (frame_pages _ _ Q1) as (D1 & D2 & D3). destruct (frame_pages _ _ F) as (U1 & U2 & U3).
      destruct T1 as (V1 & V2 & V3). unfold one_more_page. rewrite C1, C2, D1, D2, V1, V2, V1, U1. repeat split.
      intros i Hi Ni. rewrite C3, D3, V3.
      + now apply U3.
      + rewrite U1. exact Hi.
      + now rewrite U2.
      + rewrite V2, V1, U1. lia.
      + rewrite D2, V2, V1, U1. lia.
    - exists (ops_of s4 (pageno s4)), y', (if negx then x else if nlt A x (ofZ A 0) then x_x (t_geo s4) else x).
      split; [reflexivity|]. split; [exact Y4|]. rewrite X4. destruct negx; [reflexivity|]. now destruct (nlt A x _).
  Qed.

  (** *** C26.  Each movement of the cursor, in every state: only the cursor
      moves (every other part of the state is as before). *)
  Definition cursor s : num A * num A := (x_x (t_geo s), x_y (t_geo s)).
  Definition moved_to s (x y : num A) : st A := st_geo (sx_y y (sx_x x (t_geo s))) s.
  (** a coordinate counts from the left or top edge, or, if it is not greater
      or equal 0, from the opposite edge *)
  Definition from_edge (v extent : num A) : num A :=
    if nlt A (ofZ A 0) v || neq A v (ofZ A 0) then v else nadd A extent v.

  Lemma geo_eta (g : @geo A) : sx_y (x_y g) g = g. Proof. now destruct g. Qed.
  Lemma geo_eta_x (g : @geo A) : sx_x (x_x g) g = g. Proof. now destruct g. Qed.

  Theorem C26_movements n s :
    (forall x, exec (S n) (SetX x) s = Some (moved_to s (from_edge x (x_w (t_geo s))) (x_y (t_geo s)))) /\
    (forall y, exec (S n) (SetY y) s = Some (moved_to s (x_lm (t_geo s)) (from_edge y (x_h (t_geo s))))) /\
    (forall x y, exec (S n) (SetXY x y) s = Some (moved_to s (from_edge x (x_w (t_geo s))) (from_edge y (x_h (t_geo s))))) /\
    exec (S n) SetHomeXY s = Some (moved_to s (from_edge (x_lm (t_geo s)) (x_w (t_geo s))) (from_edge (x_tm (t_geo s)) (x_h (t_geo s)))) /\
    (forall h, exec (S n) (Ln h) s = Some (moved_to s (x_lm (t_geo s))
        (nadd A (x_y (t_geo s)) (if nlt A h (ofZ A 0) then x_lasth (t_geo s) else h)))).
  Proof.
    destruct s as [li gf fo [? ? ? ? ? ? ? ? ? ? ? ? ? ? ? ? ? ? ? ? ? ?] ne ho lk lg]. repeat split.
  Qed.

  (** the width of a cell: as given, or up to the right margin *)
  Definition cell_width s (w : num A) : num A :=
    if neq A w (ofZ A 0) then nsub A (nsub A (x_w (t_geo s)) (x_rm (t_geo s))) (x_x (t_geo s)) else w.

  (** A cell that is not moved to a new page leaves the cursor to its right (ln
      below 1), at the beginning of the next line (ln = 1) or below itself (ln
      above 1); its height is what Ln takes for a negative argument; nothing
      else of the geometry changes, nor fonts, colors and settings. *)
  Theorem C26_cell n w h txt border ln align fill l u s s' :
    failed s = false -> fd_name (f_cur (t_fnt s)) <> [] -> nlt A (x_trig (t_geo s)) (nadd A (x_y (t_geo s)) h) = false ->
    exec (S n) (CellFormat w h txt border ln align fill l u) s = Some s' ->
    t_geo s' = sx_lasth h (t_geo (
      if ln <=? 0 then moved_to s (nadd A (x_x (t_geo s)) (cell_width s w)) (x_y (t_geo s))
      else moved_to s (if ln =? 1 then x_lm (t_geo s) else x_x (t_geo s)) (nadd A (x_y (t_geo s)) h))) /\
    t_fnt s' = t_fnt s /\ t_gfx s' = t_gfx s /\ t_nest s' = t_nest s /\ t_hook s' = t_hook s /\ failed s' = false.
  Proof.
    intros Hf Hn Hb H. cbn [ApiModel.exec step] in H. unfold cell_format in H. rewrite Hf in H.
    destruct (beqb (fd_name (f_cur (t_fnt s))) []) eqn:En; [apply beqb_eq in En; contradiction|]. cbv zeta in H.
    unfold cell_break, break_wanted in H. cbv zeta in H. rewrite Hb in H. cbn [andb] in H. injection H as <-.
    assert (R : forall (P : st A -> Prop), (forall s1, t_fnt s1 = t_fnt s /\ t_gfx s1 = t_gfx s /\ t_nest s1 = t_nest s /\ t_hook s1 = t_hook s /\ failed s1 = false -> P s1) ->
      P (cell_body w h txt (upper border) ln align fill l u s)).
    { intros P HP. apply HP. unfold cell_body. cbv zeta. set (w' := if neq A w _ then _ else w).
      set (ops := _ ++ _). set (s1 := match txt with [] => s | _ => _ end).
      assert (E : t_fnt s1 = t_fnt s /\ t_gfx s1 = t_gfx s /\ t_nest s1 = t_nest s /\ t_hook s1 = t_hook s /\ failed s1 = false) by (unfold s1; destruct txt; [auto|]; destruct (_ || _); auto).
      clearbody s1. set (s2 := match ops with [] => s1 | _ => _ end).
      assert (E2 : t_fnt s2 = t_fnt s /\ t_gfx s2 = t_gfx s /\ t_nest s2 = t_nest s /\ t_hook s2 = t_hook s /\ failed s2 = false).
      { unfold s2. destruct ops; [exact E|]. rewrite emit_fnt, emit_gfx, emit_nest, emit_hook, emit_failed. exact E. }
      clearbody s2. destruct (ln >? 0); exact E2. }
    split; [|apply R; auto].
    destruct (cell_geo w h txt (upper border) ln align fill l u s) as (w' & -> & ->). cbv zeta.
    destruct (Z.gtb_spec ln 0), (Z.leb_spec ln 0); try lia.
    - destruct (ln =? 1); destruct s as [li gf fo [? ? ? ? ? ? ? ? ? ? ? ? ? ? ? ? ? ? ? ? ? ?] ne ho lk lg]; reflexivity.
    - destruct s as [li gf fo [? ? ? ? ? ? ? ? ? ? ? ? ? ? ? ? ? ? ? ? ? ?] ne ho lk lg]; reflexivity.
  Qed.

  (** A row of cells, however many: each begins where the one before ends, and
      Ln with a negative argument then goes to the line below the row. *)
  Definition row (h : num A) (cells : list (num A * bytes)) : list (call A) :=
    List.map (fun '(w, txt) => CellFormat w h txt [] 0 (bs "L") false 0 []) cells.
  Theorem C26_row n h cells s b s' :
    nlt A h (ofZ A 0) = false -> Forall (fun c => neq A (fst c) (ofZ A 0) = false) cells -> cells <> [] ->
    failed s = false -> fd_name (f_cur (t_fnt s)) <> [] -> nlt A (x_trig (t_geo s)) (nadd A (x_y (t_geo s)) h) = false ->
    run (S n) (calls (row h cells ++ [Ln (nopp A (ofZ A 1))])) s = Some (b, s') -> nlt A (nopp A (ofZ A 1)) (ofZ A 0) = true ->
    cursor s' = (x_lm (t_geo s), nadd A (x_y (t_geo s)) h) /\
    exists s1, run (S n) (calls (row h cells)) s = Some (true, s1) /\
      cursor s1 = (fold_left (nadd A) (List.map fst cells) (x_x (t_geo s)), x_y (t_geo s)).
  Proof.
    intros Hh Hw Hne Hf Hn Ht Hrun Hm1.
    assert (G : forall cells s, Forall (fun c => neq A (fst c) (ofZ A 0) = false) cells ->
      failed s = false -> fd_name (f_cur (t_fnt s)) <> [] -> nlt A (x_trig (t_geo s)) (nadd A (x_y (t_geo s)) h) = false ->
      exists s1, (forall rest, run (S n) (calls (row h cells ++ rest)) s = run (S n) (calls rest) s1) /\
        cursor s1 = (fold_left (nadd A) (List.map fst cells) (x_x (t_geo s)), x_y (t_geo s)) /\
        x_lm (t_geo s1) = x_lm (t_geo s) /\ (cells <> [] -> x_lasth (t_geo s1) = h)).
    { clear. induction cells as [|[w txt] cells IH]; intros s Hw Hf Hn Ht.
      - exists s. repeat split; auto. congruence.
      - inversion Hw as [|? ? Hw1 Hw2]; subst. cbn [fst] in Hw1.
        destruct (exec (S n) (CellFormat w h txt [] 0 (bs "L") false 0 []) s) as [s2|] eqn:E.
        2: { exfalso. cbn [ApiModel.exec step] in E. unfold cell_format in E. rewrite Hf in E.
             destruct (beqb (fd_name (f_cur (t_fnt s))) []) eqn:En; [discriminate|]. cbv zeta in E.
             unfold cell_break, break_wanted in E. cbv zeta in E. rewrite Ht in E. cbn [andb] in E. discriminate. }
        destruct (C26_cell _ _ _ _ _ _ _ _ _ _ _ _ Hf Hn Ht E) as (C1 & C2 & _ & _ & _ & C6).
        cbn [Z.leb Z.compare] in C1. unfold cell_width in C1. rewrite Hw1 in C1.
        destruct (IH s2) as (s1 & I1 & I2 & I3 & I4); auto.
        { now rewrite C2. } { rewrite C1. exact Ht. }
        exists s1. split; [|split; [|split]].
        + intros rest. specialize (I1 rest). cbn [row List.map app calls]. unfold ApiModel.run in *. cbn [run_with]. rewrite E. exact I1.
        + rewrite I2. cbn [List.map fst fold_left]. rewrite C1. reflexivity.
        + rewrite I3, C1. reflexivity.
        + intros _. destruct cells as [|c cells]; [|apply I4; discriminate].
          specialize (I1 []). cbn in I1. unfold ApiModel.run in I1. cbn in I1. injection I1 as <-. rewrite C1. reflexivity. }
    destruct (G cells s Hw Hf Hn Ht) as (s1 & G1 & G2 & G3 & G4). rewrite G1 in Hrun.
    split.
    - unfold ApiModel.run in Hrun. cbn [calls run_with] in Hrun. rewrite (proj2 (proj2 (proj2 (proj2 (C26_movements n s1))))) in Hrun.
      injection Hrun as _ <-. unfold cursor in *. cbn. rewrite Hm1, (G4 Hne), G3. injection G2 as _ ->. reflexivity.
    - exists s1. split; [|exact G2]. specialize (G1 []). rewrite app_nil_r in G1. rewrite G1. reflexivity.
  Qed.
End Props.
Print Assumptions C25_cell.
Print Assumptions C25_flowing_image.
Print Assumptions C26_movements.
Print Assumptions C26_cell.
Print Assumptions C26_row.

(** *** Examples: a header, a page break function that moves the cursor and
    agrees, a justified line; the cell ends at 280, where the bottom margin
    begins, or one below *)
Definition cell_ex (h : Z) : list (call arithZ) :=
  [SetHeaderFunc (Some (calls [SetXY (A := arithZ) 3 4; Draw (bs "l S") []])); SetAcceptPageBreakFunc (Step (SetX (A := arithZ) 40) (fun _ => Done true));
   AddPage; SetFont (A := arithZ) (bs "Arial") [] 12; JustifyWs (A := arithZ) 5; SetXY (A := arithZ) 30 270;
   CellFormat (A := arithZ) 50 h [] [] 0 [] true 0 []].
Definition break_view (s : st arithZ) : (Z * Z) * Z * nat * nat * option Z :=
  ((x_x (t_geo s) : Z, x_y (t_geo s) : Z), x_ws (t_geo s) : Z, pages s, pageno s, word_spacing (ops_of s (pageno s)) : option Z).
Example C25_fits : after (cell_ex 10) break_view = Some (80, 270, 5, 1%nat, 1%nat, Some 5).
Proof. vm_compute. reflexivity. Qed.
Example C25_breaks : after (cell_ex 11) break_view = Some (90, 4, 5, 2%nat, 2%nat, Some 5).
Proof. vm_compute. reflexivity. Qed.
Example C25_mild : mild_hooks (A := arithZ) (mk_hooks (Some (calls [SetXY (A := arithZ) 3 4; Draw (bs "l S") []])) false None None (Some (Step (SetX (A := arithZ) 40) (fun _ => Done true))) false false).
Proof.
  unfold mild_hooks. cbn. repeat split; try discriminate; intros p E; injection E as <-; cbn [calls okp okc];
    repeat split; try reflexivity; try discriminate.
Qed.
Example C25_image_breaks :
  after [AddPage; SetXY (A := arithZ) 30 270; ImageOut (A := arithZ) 100 50 72 (bs "1") (-1) 0 50 0 false true 0 []] break_view = Some (30, 35, 0, 2%nat, 2%nat, None).
Proof. vm_compute. reflexivity. Qed.
Example C26_row_ex : after (cell_ex 10 ++ row (A := arithZ) 7 [(10, bs "a"); (20, []); (5, bs "b")] ++ [Ln (A := arithZ) (-1)]) break_view =
  Some (10, 277, 5, 1%nat, 1%nat, Some 5).
Proof. vm_compute. reflexivity. Qed.

(** C25 in full is false of the word spacing that SetWordSpacing sets: the page
    the break opens has none. *)
Theorem C25_set_word_spacing_refuted :
  after [AddPage; SetFont (A := arithZ) (bs "Arial") [] 12; SetWordSpacing (A := arithZ) 5; SetXY (A := arithZ) 30 275; CellFormat (A := arithZ) 50 10 (bs "a b") [] 0 [] false 0 []]
    (fun s => (pages s, List.map (fun i => word_spacing (ops_of s i) : option Z) [1%nat; 2%nat])) = Some (2%nat, [Some 5; None]).
Proof. vm_compute. reflexivity. Qed.
