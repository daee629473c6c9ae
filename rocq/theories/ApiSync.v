(** What a reader of the page content has as graphics state, against what the
    document believes it to be. *)
From Verif Require Import Base TextModel ApiModel ApiProofs ApiErr ApiQuiet ApiTurn.
From Coq Require Import String.
Local Open Scope string_scope.
Local Open Scope list_scope.
Local Open Scope Z_scope.

(** ** Specification: a reader of page content *)
Section Reader.
  Context {A : arith}.
  (** line width, stroke and fill color, font; None is the default *)
  Record look := mk_look { r_width : option (num A); r_stroke : bytes; r_fill : bytes; r_font : option (bytes * num A) }.
  Definition reader : Type := look * list look.
  Definition read1 (q : reader) (o : op A) : reader :=
    let '(g, st) := q in
    match o with
    | Save => (g, g :: st)
    | Restore => match st with [] => (g, []) | g' :: st => (g', st) end
    | Width v => (mk_look (Some v) (r_stroke g) (r_fill g) (r_font g), st)
    | Stroke c => (mk_look (r_width g) c (r_fill g) (r_font g), st)
    | Fill c => (mk_look (r_width g) (r_stroke g) c (r_font g), st)
    | Tf f z => (mk_look (r_width g) (r_stroke g) (r_fill g) (Some (f, z)), st)
    | _ => (g, st)
    end.
  Definition read (q : reader) (l : list (op A)) : reader := fold_left read1 l q.
  (** the graphics state at the top of a page *)
  Definition look0 : look := mk_look None (bs "0 G") (bs "0 g") None.
  Definition page_look (l : list (op A)) : look := fst (read (look0, []) l).
End Reader.
Arguments look A : clear implicits.
Arguments reader A : clear implicits.

Section Sync.
  Context {A : arith}.
  Implicit Types s : st A.

  (** calls that neither open contexts, in which what is set is forgotten, nor
      turn to another page, nor write raw content *)
  Definition flat (c : call A) : Prop :=
    match c with
    | ClipBegin _ _ | ClipEnd | TransformBegin | TransformEnd | RoundedRectExt _ _ | RawWriteStr _
    | SetPage _ | ClearError => False
    | _ => True
    end.

  (** no operator of a list sets the state, or it is inside q ... Q *)
  Definition mute (l : list (op A)) : Prop := forall g, read (g, []) l = (g, []).
  Definition quiet_op (o : op A) : bool :=
    match o with Save | Restore | Width _ | Stroke _ | Fill _ | Tf _ _ => false | _ => true end.
  Definition flat_op (o : op A) : bool := match o with Save | Restore => false | _ => true end.

  Lemma read_app q l1 l2 : read q (l1 ++ l2) = read (A := A) (read q l1) l2.
  Proof. apply fold_left_app. Qed.
  Lemma read_quiet l : forallb quiet_op l = true -> forall q, read q l = q.
  Proof.
    induction l as [|o l IH]; intros H q; [reflexivity|]. cbn in H. apply andb_prop in H as [H1 H2].
    change (read q (o :: l)) with (read (read1 q o) l). rewrite IH by exact H2. destruct q, o; try discriminate H1; reflexivity.
  Qed.
  Lemma read_flat l : forallb flat_op l = true -> forall g st, exists g', read (g, st) l = (g', st).
  Proof.
    induction l as [|o l IH]; intros H g st; [now exists g|]. cbn in H. apply andb_prop in H as [H1 H2].
    change (read (g, st) (o :: l)) with (read (read1 (g, st) o) l). destruct o; try discriminate H1; cbn [read1]; apply (IH H2).
  Qed.
  Lemma mute_quiet l : forallb quiet_op l = true -> mute l.
  Proof. intros H g. now rewrite read_quiet. Qed.
  Lemma mute_block l : forallb flat_op l = true -> mute (Save :: l ++ [Restore]).
  Proof.
    intros H g. change (Save :: l ++ [Restore]) with ([Save] ++ l ++ [Restore]). rewrite !read_app.
    change (read (g, []) [Save]) with (g, [g]). destruct (read_flat l H g [g]) as [g' ->]. reflexivity.
  Qed.
  Lemma mute_app l1 l2 : mute l1 -> mute l2 -> mute (l1 ++ l2).
  Proof. intros H1 H2 g. now rewrite read_app, H1, H2. Qed.

  (** the reader agrees with the document *)
  Definition agrees (g : look A) s : Prop :=
    r_width g = Some (nmul A (g_lw (t_gfx s)) (x_k (t_geo s))) /\
    r_stroke g = c_str (g_draw (t_gfx s)) /\ r_fill g = c_str (g_fill (t_gfx s)) /\
    (f_fam (t_fnt s) <> [] -> r_font g = Some (fd_id (f_cur (t_fnt s)), f_pt (t_fnt s))).
  Definition in_sync s : Prop := exists pg g, nth_error (l_pages (t_life s)) (pageno s) = Some pg /\
    read (look0, []) (p_ops pg) = (g, []) /\ agrees g s.

  Context (N : nat).
  Definition last s : nat := (List.length (l_pages (t_life s)) - 1)%nat.
  (** on pages after page N, as long as there is no error *)
  Definition sinv s : Prop :=
    pageno s = last s /\ (N <= pageno s)%nat /\ (1 <= List.length (l_pages (t_life s)))%nat /\
    ((N < pageno s)%nat -> failed s = false -> l_state (t_life s) = 2 -> in_sync s).
  Definition srel s s' : Prop := (pageno s <= pageno s')%nat /\ (failed s = true -> failed s' = true).
  Definition both s s' : Prop := sinv s' /\ srel s s'.

  Lemma last_len s s' : List.length (l_pages (t_life s')) = List.length (l_pages (t_life s)) -> last s' = last s.
  Proof. unfold last. now intros ->. Qed.

  (** emitting operators while changing the state accordingly *)
  Lemma y_emit l s s1 : t_life s1 = t_life s ->
    (forall g, agrees g s -> exists g', read (g, []) l = (g', []) /\ agrees g' s1) -> sinv s -> both s (emit l s1).
  Proof.
    intros E1 HL (H1 & H2 & H3 & H4).
    assert (EF : failed s1 = failed s) by (unfold failed, errof; now rewrite E1).
    assert (EP : pageno s1 = pageno s) by (unfold pageno; now rewrite E1).
    split; [|split; [rewrite emit_pageno, EP; lia|rewrite emit_failed, EF; auto]].
    unfold sinv. rewrite emit_pageno, emit_failed, emit_state, EF, EP, E1. rewrite emit_count, E1.
    split; [rewrite (last_len s); [exact H1|now rewrite emit_count, E1]|].
    split; [exact H2|]. split; [exact H3|].
    intros K1 K2 K3. destruct (H4 K1 K2 K3) as (pg & g & G1 & G2 & G3). destruct (HL g G3) as (g' & L1 & L2).
    unfold in_sync. rewrite emit_pageno, EP. unfold agrees. rewrite emit_gfx, emit_geo, emit_fnt.
    exists (mk_page (p_ops pg ++ l) (p_links pg) (p_size pg)), g'.
    split; [|split; [cbn [p_ops]; now rewrite read_app, G2|exact L2]].
    unfold emit. rewrite E1, K3. cbn. rewrite E1. fold (pageno s). now rewrite (nth_error_upd_eq _ _ _ _ G1).
  Qed.
  Lemma y_same s s' : t_life s' = t_life s -> (forall g, agrees g s -> agrees g s') -> sinv s -> both s s'.
  Proof.
    intros E1 HL (H1 & H2 & H3 & H4).
    assert (EF : failed s' = failed s) by (unfold failed, errof; now rewrite E1).
    assert (EP : pageno s' = pageno s) by (unfold pageno; now rewrite E1).
    split; [|split; [rewrite EP; lia|rewrite EF; auto]].
    unfold sinv, last. rewrite EF, EP, E1. repeat split; auto. intros K1 K2 K3.
    destruct (H4 K1 K2 K3) as (pg & g & G1 & G2 & G3). exists pg, g. rewrite EP, E1. auto.
  Qed.
  Lemma y_trans a b c : both a b -> (sinv b -> both b c) -> both a c.
  Proof. intros [H1 [H2 H3]] H. destruct (H H1) as [G1 [G2 G3]]. split; [exact G1|]. split; [lia|auto]. Qed.
  Lemma y_refl s : sinv s -> both s s.
  Proof. intros H. split; [exact H|]. split; auto. Qed.

  Lemma y_mute l s : mute l -> sinv s -> both s (emit l s).
  Proof. intros H. apply y_emit; [reflexivity|]. intros g G. exists g. split; [apply H|exact G]. Qed.
  Lemma y_mute_eop l s : mute l -> sinv s -> both s (emit_on_page l s).
  Proof. intros H Hi. unfold emit_on_page. destruct (on_page s); [now apply y_mute|now apply y_refl]. Qed.

  (** a setter that writes its operator only on a page *)
  Lemma y_eop l s s1 : t_life s1 = t_life s ->
    (forall g, agrees g s -> exists g', read (g, []) l = (g', []) /\ agrees g' s1) -> sinv s -> both s (emit_on_page l s1).
  Proof.
    intros E1 HL Hi. unfold emit_on_page. destruct (on_page s1) eqn:E; [now apply (y_emit l s s1)|].
    destruct Hi as (H1 & H2 & H3 & H4). unfold on_page, pageno in E. rewrite E1 in E.
    apply negb_false_iff, Nat.eqb_eq in E.
    assert (EF : failed s1 = failed s) by (unfold failed, errof; now rewrite E1).
    assert (EP : pageno s1 = pageno s) by (unfold pageno; now rewrite E1).
    split; [|split; [rewrite EP; lia|rewrite EF; auto]].
    unfold sinv, last. rewrite EF, EP, E1. repeat split; auto. intros K. unfold pageno in *. lia.
  Qed.

  Lemma y_life s s' : pageno s' = pageno s -> l_pages (t_life s') = l_pages (t_life s) -> (failed s = true -> failed s' = true) ->
    (l_state (t_life s') = 2 -> l_state (t_life s) = 2) -> t_gfx s' = t_gfx s -> t_fnt s' = t_fnt s -> t_geo s' = t_geo s ->
    sinv s -> both s s'.
  Proof.
    intros E1 E2 E3 E4 E5 E6 E7 (H1 & H2 & H3 & H4). split; [|split; [lia|auto]].
    unfold sinv, last, in_sync, agrees. rewrite E1, E2, E5, E6, E7. repeat split; auto.
    intros K1 K2 K3. apply H4; auto. destruct (failed s) eqn:E; [|reflexivity]. now rewrite E3 in K2.
  Qed.

  Lemma y_link a b c d e f s : sinv s -> both s (new_link a b c d e f s).
  Proof.
    intros (H1 & H2 & H3 & H4). split; [|split; [apply Nat.le_refl|auto]].
    assert (EL : List.length (l_pages (t_life (new_link a b c d e f s))) = List.length (l_pages (t_life s))) by apply nl_count.
    unfold sinv. rewrite (last_len s) by exact EL. rewrite EL. repeat split; auto.
    intros K1 K2 K3. destruct (H4 K1 K2 K3) as (pg & g & G1 & G2 & G3).
    eexists _, g. split; [|split; [|exact G3]].
    - unfold new_link. cbn. fold (pageno s). rewrite (nth_error_upd_eq _ _ _ _ G1). reflexivity.
    - exact G2.
  Qed.

  Lemma y_gfx u s : (forall x, g_lw (u x) = g_lw x /\ g_draw (u x) = g_draw x /\ g_fill (u x) = g_fill x) -> sinv s -> both s (on_gfx u s).
  Proof. intros H. apply y_same; [reflexivity|]. intros g. unfold agrees. cbn. destruct (H (t_gfx s)) as (-> & -> & ->). auto. Qed.
  Lemma y_fnt u s : (forall x, f_fam (u x) = f_fam x /\ f_cur (u x) = f_cur x /\ f_pt (u x) = f_pt x) -> sinv s -> both s (on_fnt u s).
  Proof. intros H. apply y_same; [reflexivity|]. intros g. unfold agrees. cbn. destruct (H (t_fnt s)) as (-> & -> & ->). auto. Qed.
  Lemma y_geo u s : (forall x, x_k (u x) = x_k x) -> sinv s -> both s (on_geo u s).
  Proof. intros H. apply y_same; [reflexivity|]. intros g. unfold agrees. cbn. rewrite H. auto. Qed.
  Lemma y_nest u s : sinv s -> both s (on_nest u s).
  Proof. apply y_same; [reflexivity|auto]. Qed.
  Lemma y_hook u s : sinv s -> both s (on_hook u s).
  Proof. apply y_same; [reflexivity|auto]. Qed.
  Lemma y_links u s : sinv s -> both s (st_links u s).
  Proof. apply y_same; [reflexivity|auto]. Qed.
  Lemma y_log e s : sinv s -> both s (log e s).
  Proof. apply y_same; [reflexivity|auto]. Qed.
  Lemma y_err e s : sinv s -> both s (force_err e s).
  Proof. apply y_life; try reflexivity; auto. Qed.

  Context (core_font : bytes -> bytes -> fontdef + bytes) (asm : st A -> option (bytes * option error)).
  Ltac ysplit := repeat match goal with |- context [if ?b then _ else _] => destruct b end; repeat split; reflexivity.
  (** goals [sinv s -> both s (f (g (... s)))], innermost first *)
  Ltac yy :=
    match goal with
    | H : sinv ?s |- both ?s ?s => apply y_refl; exact H
    | H : sinv ?s |- both ?s (?f ?x) => eapply (y_trans s x); [yy|intros ?; y1]
    | H : sinv ?s |- both ?s (?f ?a ?x) => eapply (y_trans s x); [yy|intros ?; y1]
    end
  with y1 :=
    match goal with
    | |- both ?s (emit _ ?s) => apply y_mute; [apply mute_quiet; reflexivity|assumption]
    | |- both ?s (emit_on_page _ ?s) => apply y_mute_eop; [apply mute_quiet; reflexivity|assumption]
    | |- both ?s (on_gfx _ ?s) => apply y_gfx; [intros ?; ysplit|assumption]
    | |- both ?s (on_fnt _ ?s) => apply y_fnt; [intros ?; ysplit|assumption]
    | |- both ?s (on_geo _ ?s) => apply y_geo; [intros ?; cbv zeta; ysplit|assumption]
    | |- both ?s (on_nest _ ?s) => apply y_nest; assumption
    | |- both ?s (on_hook _ ?s) => apply y_hook; assumption
    | |- both ?s (st_links _ ?s) => apply y_links; assumption
    | |- both ?s (log _ ?s) => apply y_log; assumption
    | |- both ?s (force_err _ ?s) => apply y_err; assumption
    | |- both ?s (new_link _ _ _ _ _ _ ?s) => apply y_link; assumption
    end.

  (** setters *)
  Ltac agree := let g := fresh "gg" in intros g (G1 & G2 & G3 & G4); eexists; (split; [reflexivity|]); unfold agrees; cbn; rewrite ?emit_geo; auto.
  Lemma y_add_font fam sty r s : sinv s -> both s (add_font fam sty r s).
  Proof.
    intros Hi. unfold add_font. destruct (failed s); [yy|]. cbv zeta. destruct (assoc _ _); [yy|]. destruct r; yy.
  Qed.
  Lemma y_select fam sty fd size s : sinv s -> both s (select_font fam sty fd size s).
  Proof. intros Hi. unfold select_font. apply (y_eop _ s); [reflexivity| |exact Hi]. agree. Qed.
  Lemma y_set_font fam sty size s : sinv s -> both s (set_font core_font fam sty size s).
  Proof.
    intros Hi. unfold set_font. destruct (failed s); [yy|]. cbv zeta.
    set (s1 := on_fnt _ s). assert (H1 : both s s1) by (unfold s1; yy). clearbody s1.
    eapply y_trans; [exact H1|]. intros Hi1. clear Hi H1.
    repeat match goal with |- context [neq ?a ?b ?c] => destruct (neq a b c) end;
    (destruct (assoc _ (f_table (t_fnt s1))); [now apply y_select|]);
    (destruct (existsb _ _); [|now apply y_err]);
    (destruct (assoc _ (f_table (t_fnt s1))); [now apply y_select|]);
    match goal with |- both s1 (if failed ?x then _ else _) =>
      assert (H2 : both s1 x) by (now apply y_add_font); set (s2 := x) in *; clearbody s2;
      destruct (failed s2); [exact H2|]; destruct (assoc _ (f_table (t_fnt s2))); [|exact H2];
      eapply y_trans; [exact H2|]; intros; now apply y_select end.
  Qed.
  Lemma y_put_font v s : sinv s -> both s (put_font core_font v s).
  Proof. intros. unfold put_font. destruct (v_fam v); [now apply y_refl|now apply y_set_font]. Qed.

  Lemma y_width w s : sinv s -> both s (emit [Width (nmul A w (x_k (t_geo s)))] (on_gfx (sg_lw w) s)).
  Proof. intros Hi. apply (y_emit _ s); [reflexivity| |exact Hi]. agree. Qed.
  Lemma y_draw c s : sinv s -> both s (emit [Stroke (c_str c)] (on_gfx (sg_draw c) s)).
  Proof. intros Hi. apply (y_emit _ s); [reflexivity| |exact Hi]. agree. Qed.
  Lemma y_fill c s : sinv s -> both s (emit [Fill (c_str c)] (on_gfx (sg_fill c) s)).
  Proof. intros Hi. apply (y_emit _ s); [reflexivity| |exact Hi]. agree. Qed.
  Lemma y_transform a b c d e f s : sinv s -> both s (transform a b c d e f s).
  Proof. intros. unfold transform, fail. split_ifs; yy. Qed.
  Lemma y_end_layer s : sinv s -> both s (end_layer s).
  Proof. intros. unfold end_layer. destruct (n_layer _); yy. Qed.
  Lemma cm_of_quiet m : quiet_op (cm_of m) = true.
  Proof. unfold cm_of. split_ifs; reflexivity. Qed.
  Lemma cm_of_flat m : flat_op (cm_of m) = true.
  Proof. unfold cm_of. split_ifs; reflexivity. Qed.

  Lemma y_simple c s s' : simple c = true -> flat c -> step core_font asm no_runner c s = Some s' -> sinv s -> both s s'.
  Proof.
    intros H1 HP. destruct c; try discriminate H1; clear H1; try contradiction HP; cbn [step]; intros HH Hi; try (injection HH as <-);
      try (apply y_set_font; exact Hi);
      try solve [unfold transform_scale, transform_rotate, transform_skew, transform_translate; cbv zeta;
                 split_ifs; try (apply y_transform; exact Hi); yy];
      try solve [open_simple; try destruct (failed s); split_ifs; yy].
    - unfold set_draw_color. apply (y_eop _ s); [reflexivity| |exact Hi]. agree.
    - unfold set_fill_color. apply (y_eop _ s); [reflexivity| |exact Hi]. agree.
    - unfold set_draw_spot, get_spot. destruct (failed s); [yy|]. destruct (assoc _ _); [|yy].
      apply (y_eop _ s); [reflexivity| |exact Hi]. agree.
    - unfold set_fill_spot, get_spot. destruct (failed s); [yy|]. destruct (assoc _ _); [|yy].
      apply (y_eop _ s); [reflexivity| |exact Hi]. agree.
    - unfold set_line_width. apply (y_eop _ s); [reflexivity| |exact Hi]. agree.
    - unfold set_font_size. apply (y_eop _ s); [reflexivity| |exact Hi]. agree.
    - unfold set_font_unit_size. cbv zeta. apply (y_eop _ s); [reflexivity| |exact Hi]. agree.
    - apply y_mute; [|exact Hi]. apply (mute_block [cm_of m; Paint what args]). cbn. now rewrite cm_of_flat.
    - apply y_mute; [|exact Hi]. apply (mute_block [Paint (bs "re W n") args; cm_of args; Paint (bs "sh") args]). cbn. now rewrite cm_of_flat.
    - unfold fail. destruct (on_page s); [|destruct (failed s); yy].
      apply y_mute; [|exact Hi]. apply (mute_block [cm_of m; Paint _ []]). cbn. now rewrite cm_of_flat.
    - unfold text_at. cbv zeta. apply y_mute; [|exact Hi]. destruct (g_flag _); [|apply mute_quiet; reflexivity].
      match goal with |- mute (Save :: ?a :: [?b] ++ [Restore]) => exact (mute_block [a; b] eq_refl) end.
    - revert HH. unfold set_link. cbv zeta. destruct (_ && _); [|discriminate]. intros [= <-]. yy.
  Qed.

  Lemma y_failed s s' : failed s' = true -> pageno s' = pageno s -> List.length (l_pages (t_life s')) = List.length (l_pages (t_life s)) ->
    sinv s -> both s s'.
  Proof.
    intros E1 E2 E3 (H1 & H2 & H3 & H4). split; [|split; [lia|auto]].
    unfold sinv. rewrite (last_len s) by exact E3. rewrite E2, E3. repeat split; auto. intros _ K. congruence.
  Qed.

  (** reading the current page *)
  Definition reads s (g : look A) : Prop := exists pg, nth_error (l_pages (t_life s)) (pageno s) = Some pg /\ read (look0, []) (p_ops pg) = (g, []).
  Lemma reads_emit l s s1 g g' : l_state (t_life s) = 2 -> t_life s1 = t_life s -> reads s g -> read (g, []) l = (g', []) -> reads (emit l s1) g'.
  Proof.
    intros K E1 (pg & G1 & G2) HL. exists (mk_page (p_ops pg ++ l) (p_links pg) (p_size pg)). split.
    - rewrite emit_pageno. unfold emit. rewrite E1, K. cbn. unfold pageno. rewrite E1. fold (pageno s). now rewrite (nth_error_upd_eq _ _ _ _ G1).
    - cbn [p_ops]. now rewrite read_app, G2.
  Qed.

  Lemma set_font_shape fam sty size s : exists s2, t_gfx s2 = t_gfx s /\ t_geo s2 = t_geo s /\
    l_pages (t_life s2) = l_pages (t_life s) /\ pageno s2 = pageno s /\ l_state (t_life s2) = l_state (t_life s) /\
    ((set_font core_font fam sty size s = s2 /\ f_fam (t_fnt s2) = f_fam (t_fnt s) /\ f_cur (t_fnt s2) = f_cur (t_fnt s) /\ f_pt (t_fnt s2) = f_pt (t_fnt s))
     \/ exists fam' sty' fd size', set_font core_font fam sty size s = select_font fam' sty' fd size' s2).
  Proof.
    unfold set_font. destruct (failed s); [exists s; repeat split; left; repeat split|]. cbv zeta.
    set (s1 := on_fnt _ s).
    assert (E1 : t_gfx s1 = t_gfx s /\ t_geo s1 = t_geo s /\ l_pages (t_life s1) = l_pages (t_life s) /\ pageno s1 = pageno s /\
      l_state (t_life s1) = l_state (t_life s) /\ f_fam (t_fnt s1) = f_fam (t_fnt s) /\ f_cur (t_fnt s1) = f_cur (t_fnt s) /\ f_pt (t_fnt s1) = f_pt (t_fnt s)) by (repeat split).
    destruct E1 as (E1 & E2 & E3 & E4 & E5 & E6 & E7 & E8). clearbody s1.
    set (fam1 := match fam_escape fam with [] => _ | _ => _ end). clearbody fam1.
    set (size1 := if neq A size (ofZ A 0) then _ else size). clearbody size1.
    destruct (assoc _ (f_table (t_fnt s1))); [exists s1; repeat (split; [assumption|]); right; eauto|].
    destruct (existsb _ _); [|exists (force_err (EFont (if beqb fam1 (bs "arial") then bs "helvetica" else fam1) (norm_style sty)) s1);
      repeat (split; [assumption|]); left; repeat split; assumption].
    destruct (assoc _ (f_table (t_fnt s1))); [exists s1; repeat (split; [assumption|]); right; eauto|].
    match goal with |- context [add_font ?a ?b ?c s1] => set (s2 := add_font a b c s1) end.
    assert (F : t_gfx s2 = t_gfx s1 /\ t_geo s2 = t_geo s1 /\ l_pages (t_life s2) = l_pages (t_life s1) /\ pageno s2 = pageno s1 /\
      l_state (t_life s2) = l_state (t_life s1) /\ f_fam (t_fnt s2) = f_fam (t_fnt s1) /\ f_cur (t_fnt s2) = f_cur (t_fnt s1) /\ f_pt (t_fnt s2) = f_pt (t_fnt s1)).
    { unfold s2, add_font. cbv zeta. destruct (failed s1); [repeat split|]. destruct (assoc _ _); [repeat split|].
      destruct (core_font _ _); repeat split. }
    destruct F as (F1 & F2 & F3 & F4 & F5 & F6 & F7 & F8). clearbody s2.
    exists s2. split; [congruence|]. split; [congruence|]. split; [congruence|]. split; [congruence|]. split; [congruence|].
    destruct (failed s2); [left; repeat split; congruence|].
    destruct (assoc _ (f_table (t_fnt s2))); [right; eauto|left; repeat split; congruence].
  Qed.

  Definition font_read (g : look A) s : Prop := f_fam (t_fnt s) <> [] -> r_font g = Some (fd_id (f_cur (t_fnt s)), f_pt (t_fnt s)).

  Lemma put_font_reads v s g : l_state (t_life s) = 2 -> on_page s = true -> reads s g -> font_read g s ->
    let s' := put_font core_font v s in
    exists g', reads s' g' /\ font_read g' s' /\ r_width g' = r_width g /\ r_stroke g' = r_stroke g /\ r_fill g' = r_fill g /\
      t_gfx s' = t_gfx s /\ t_geo s' = t_geo s /\ l_state (t_life s') = 2 /\ pageno s' = pageno s /\
      List.length (l_pages (t_life s')) = List.length (l_pages (t_life s)).
  Proof.
    intros K Hp Hr Hf. cbv zeta. unfold put_font. destruct (v_fam v) as [|c fam]; [exists g; repeat (split; auto)|].
    destruct (set_font_shape (c :: fam) (v_style v) (v_pt v) s) as (s2 & E1 & E2 & E3 & E4 & E5 & [(-> & E6 & E7 & E8)|(fam' & sty' & fd & size' & ->)]).
    - exists g. split; [unfold reads; now rewrite E3, E4|]. split; [unfold font_read; now rewrite E6, E7, E8|]. rewrite E3. repeat (split; [congruence|]). reflexivity.
    - assert (Hr2 : reads s2 g) by (unfold reads; now rewrite E3, E4).
      assert (K2 : l_state (t_life s2) = 2) by congruence.
      exists (mk_look (r_width g) (r_stroke g) (r_fill g) (Some (fd_id fd, size'))).
      assert (Hp2 : on_page s2 = true) by (unfold on_page; now rewrite E4).
      unfold select_font, emit_on_page. change (on_page (on_fnt ?u s2)) with (on_page s2). rewrite Hp2.
      split; [apply (reads_emit _ s2 _ g); auto|]. split; [unfold font_read; rewrite emit_fnt; reflexivity|].
      rewrite emit_gfx, emit_geo, emit_state, emit_pageno, emit_count, of_pageno. cbn [on_fnt st_fnt t_gfx t_geo t_life].
      repeat (split; [reflexivity || congruence|]). rewrite E3. reflexivity.
  Qed.

  Lemma open_page_reads v s : l_state (t_life s) = 2 -> on_page s = true -> reads s look0 -> f_fam (t_fnt s) = [] ->
    let s' := fst (open_page core_font v s) in
    pageno s' = pageno s /\ List.length (l_pages (t_life s')) = List.length (l_pages (t_life s)) /\ (failed s' = false -> in_sync s').
  Proof.
    intros K Hp Hr Hf. cbv zeta. unfold open_page. cbv zeta.
    set (s1 := open_lines v s).
    assert (H1 : exists g1, reads s1 g1 /\ r_width g1 = Some (nmul A (v_lw v) (x_k (t_geo s))) /\ r_stroke g1 = bs "0 G" /\ r_fill g1 = bs "0 g" /\
      g_lw (t_gfx s1) = v_lw v /\ t_geo s1 = t_geo s /\ t_fnt s1 = t_fnt s /\ l_state (t_life s1) = 2 /\ pageno s1 = pageno s /\
      List.length (l_pages (t_life s1)) = List.length (l_pages (t_life s))).
    { unfold s1, open_lines. cbv zeta. set (s0 := emit [Cap _; Join _; Width _] _).
      assert (R : reads s0 (mk_look (Some (nmul A (v_lw v) (x_k (t_geo s)))) (bs "0 G") (bs "0 g") None)).
      { unfold s0. apply (reads_emit _ s _ look0); auto. }
      assert (E0 : l_state (t_life s0) = 2 /\ g_lw (t_gfx s0) = v_lw v /\ t_geo s0 = t_geo s /\ t_fnt s0 = t_fnt s /\ pageno s0 = pageno s /\
        List.length (l_pages (t_life s0)) = List.length (l_pages (t_life s))).
      { unfold s0. rewrite emit_state, emit_gfx, emit_geo, emit_fnt, emit_pageno, emit_count. repeat split; auto. }
      destruct E0 as (E0 & E1 & E2 & E3 & E4 & E5). clearbody s0.
      eexists. split; [destruct (g_dash _); [exact R|apply (reads_emit _ s0 s0 _ _ E0 eq_refl R); reflexivity]|].
      cbn. repeat (split; [reflexivity|]).
      destruct (g_dash _); rewrite ?emit_state, ?emit_gfx, ?emit_geo, ?emit_fnt, ?emit_pageno, ?emit_count; repeat split; assumption. }
    destruct H1 as (g1 & R1 & W1 & S1 & F1 & L1 & G1 & N1 & K1 & P1 & C1). clearbody s1.
    destruct (put_font_reads v s1 g1 K1) as (g2 & R2 & N2 & W2 & S2 & F2 & L2 & G2 & K2 & P2 & C2).
    { unfold on_page in *. now rewrite P1. } { exact R1. } { unfold font_read. rewrite N1, Hf. contradiction. }
    set (s2 := put_font core_font v s1) in *. clearbody s2.
    destruct (stops v s2) eqn:Es; cbn [fst].
    { split; [congruence|]. split; [congruence|]. unfold stops in Es. apply andb_prop in Es as [_ Es]. congruence. }
    set (s3 := open_draw v s2).
    assert (H3 : exists g3, reads s3 g3 /\ font_read g3 s3 /\ r_width g3 = r_width g2 /\ r_stroke g3 = c_str (g_draw (t_gfx s3)) /\ r_fill g3 = bs "0 g" /\
      g_lw (t_gfx s3) = v_lw v /\ t_geo s3 = t_geo s /\ l_state (t_life s3) = 2 /\ pageno s3 = pageno s2 /\
      List.length (l_pages (t_life s3)) = List.length (l_pages (t_life s2))).
    { unfold s3, open_draw. cbv zeta. destruct (beqb _ _) eqn:E.
      - apply beqb_eq in E. exists g2. rewrite og_pageno. cbn [on_gfx st_gfx t_gfx t_geo t_life sg_draw g_draw g_lw]. rewrite E. split; [exact R2|]. split; [exact N2|].
        repeat (split; [congruence|]). reflexivity.
      - exists (mk_look (r_width g2) (c_str (v_draw v)) (r_fill g2) (r_font g2)). split; [apply (reads_emit _ s2 _ g2); auto|].
        unfold font_read. rewrite emit_fnt, emit_gfx, emit_geo, emit_state, emit_pageno, emit_count, og_pageno. split; [exact N2|].
        cbn [on_gfx st_gfx t_gfx t_geo t_life sg_draw sg_fill g_draw g_fill g_lw r_width r_stroke r_fill]. repeat (split; [reflexivity || congruence|]). reflexivity. }
    destruct H3 as (g3 & R3 & N3 & W3 & S3 & F3 & L3 & G3 & K3 & P3 & C3). clearbody s3.
    set (s4 := open_fill v s3).
    assert (H4 : exists g4, reads s4 g4 /\ font_read g4 s4 /\ r_width g4 = r_width g3 /\ r_stroke g4 = c_str (g_draw (t_gfx s4)) /\ r_fill g4 = c_str (g_fill (t_gfx s4)) /\
      g_lw (t_gfx s4) = v_lw v /\ t_geo s4 = t_geo s /\ pageno s4 = pageno s3 /\
      List.length (l_pages (t_life s4)) = List.length (l_pages (t_life s3))).
    { unfold s4, open_fill. cbv zeta. destruct (beqb _ _) eqn:E.
      - apply beqb_eq in E. exists g3. rewrite og_pageno. cbn [on_gfx st_gfx t_gfx t_geo t_life sg_fill g_draw g_fill g_lw]. rewrite E. split; [exact R3|]. split; [exact N3|].
        repeat (split; [congruence|]). reflexivity.
      - exists (mk_look (r_width g3) (r_stroke g3) (c_str (v_fill v)) (r_font g3)). split; [apply (reads_emit _ s3 _ g3); auto|].
        unfold font_read. rewrite emit_fnt, emit_gfx, emit_geo, emit_pageno, emit_count, og_pageno. split; [exact N3|].
        cbn [on_gfx st_gfx t_gfx t_geo t_life sg_draw sg_fill g_draw g_fill g_lw r_width r_stroke r_fill]. repeat (split; [reflexivity || congruence|]). reflexivity. }
    destruct H4 as (g4 & (pg & R4 & R4') & N4 & W4 & S4 & F4 & L4 & G4 & P4 & C4). clearbody s4.
    change (pageno (put_text v s4)) with (pageno s4). change (l_pages (t_life (put_text v s4))) with (l_pages (t_life s4)).
    split; [congruence|]. split; [congruence|]. intros _. exists pg, g4. split; [exact R4|]. split; [exact R4'|].
    unfold agrees. cbn [put_text on_gfx st_gfx t_gfx t_geo t_fnt sg_flag sg_text g_lw g_draw g_fill].
    rewrite L4, G4. split; [congruence|]. split; [exact S4|]. split; [exact F4|]. exact N4.
  Qed.

  Lemma open_page_failed v s : failed s = true -> let s' := fst (open_page core_font v s) in
    failed s' = true /\ pageno s' = pageno s /\ List.length (l_pages (t_life s')) = List.length (l_pages (t_life s)).
  Proof.
    intros Hf. cbv zeta. unfold open_page. cbv zeta. set (s1 := open_lines v s).
    assert (H1 : failed s1 = true /\ pageno s1 = pageno s /\ List.length (l_pages (t_life s1)) = List.length (l_pages (t_life s))).
    { unfold s1, open_lines. cbv zeta. destruct (g_dash _); rewrite ?emit_failed, ?emit_pageno, ?emit_count; repeat split; exact Hf. }
    destruct H1 as (A1 & A2 & A3). clearbody s1. rewrite put_font_failed by exact A1.
    destruct (stops v s1); cbn [fst]; [auto|].
    unfold put_text. rewrite og_failed, og_pageno. cbn [on_gfx st_gfx t_life].
    unfold open_fill, open_draw. cbv zeta. destruct (beqb _ _), (beqb _ _); rewrite ?emit_failed, ?emit_pageno, ?emit_count;
      cbn [on_gfx st_gfx t_life]; rewrite ?og_failed, ?og_pageno, ?emit_failed, ?emit_pageno, ?emit_count; auto.
  Qed.

  Lemma y_new v o w h s : sinv s -> both s (fst (open_page core_font v (begin_page o w h s))) /\
    (failed s = false -> pageno (fst (open_page core_font v (begin_page o w h s))) = S (pageno s)).
  Proof.
    intros Hi. unfold begin_page. destruct (failed s) eqn:Hf.
    { split; [|discriminate]. destruct (open_page_failed v s Hf) as (A1 & A2 & A3). now apply y_failed. }
    cbv zeta. set (o' := match o with [] => _ | _ => _ end). clearbody o'.
    set (s1 := note_size _ _ _ _).
    assert (H1 : l_state (t_life s1) = 2 /\ pageno s1 = S (pageno s) /\ List.length (l_pages (t_life s1)) = S (List.length (l_pages (t_life s))) /\
      f_fam (t_fnt s1) = [] /\ reads s1 look0).
    { destruct Hi as (H1 & H2 & H3 & _).
      assert (EN : nth_error (l_pages (t_life s) ++ [mk_page [] [] None]) (S (pageno s)) = Some (mk_page (A := A) [] [] None)).
      { replace (S (pageno s)) with (List.length (l_pages (t_life s))) by (unfold last in H1; lia).
        rewrite nth_error_app2 by lia. now rewrite Nat.sub_diag. }
      unfold s1, note_size. cbv zeta. destruct (_ || _).
      - cbn [on_life st_life t_life sl_pages l_state l_pages]. rewrite length_upd.
        split; [reflexivity|]. split; [reflexivity|]. split; [cbn; rewrite app_length; cbn; lia|]. split; [reflexivity|].
        eexists. split; [unfold pageno; cbn [on_life st_life t_life sl_pages l_page l_pages]; apply nth_error_upd_eq; exact EN|reflexivity].
      - split; [reflexivity|]. split; [reflexivity|]. split; [cbn; rewrite app_length; cbn; lia|]. split; [reflexivity|].
        eexists. split; [exact EN|reflexivity]. }
    destruct H1 as (K & P & C & F & R). clearbody s1.
    destruct (open_page_reads v s1 K) as (A1 & A2 & A3); [unfold on_page; now rewrite P|exact R|exact F|].
    destruct Hi as (H1 & H2 & H3 & _).
    split; [|intros _; congruence].
    split; [|split; [rewrite A1, P; lia|congruence]].
    unfold sinv, last. rewrite A2, A1, C, P. unfold last in H1. split; [lia|]. split; [lia|]. split; [lia|]. auto.
  Qed.

  Lemma y_put_back v s : sinv s -> both s (put_back core_font v s).
  Proof.
    intros Hi. unfold put_back. cbv zeta.
    assert (H1 : both s (back_width v s)) by (unfold back_width; destruct (neq _ _ _); [yy|now apply y_width]).
    assert (H2 : both s (put_font core_font v (back_width v s))) by (eapply y_trans; [exact H1|]; intros; now apply y_put_font).
    set (s2 := put_font _ _ _) in *. clearbody s2. destruct (stops _ _); [exact H2|].
    eapply y_trans; [exact H2|]. intros Hi2. clear H1 H2 Hi. unfold put_text.
    assert (H3 : both s2 (back_draw v s2)) by (unfold back_draw; destruct (beqb _ _); [yy|now apply y_draw]).
    assert (H4 : both s2 (back_fill v (back_draw v s2))).
    { eapply y_trans; [exact H3|]. intros. unfold back_fill. destruct (beqb _ _); [now apply y_refl|now apply y_fill]. }
    eapply y_trans; [exact H4|]. intros. y1.
  Qed.

  Lemma cell_ops_mute w h txt border fill align s : mute (cell_box w h border fill s ++ match txt with [] => [] | _ => cell_text w h txt align s end).
  Proof.
    apply mute_app.
    - apply mute_quiet. unfold cell_box. cbv zeta. rewrite forallb_app. split_ifs; reflexivity.
    - destruct txt as [|t0 txt]; [intros g; reflexivity|]. unfold cell_text. cbv zeta. destruct (g_flag _); [|apply mute_quiet; reflexivity].
      match goal with |- mute (Save :: ?a :: [?b] ++ [Restore]) => exact (mute_block [a; b] eq_refl) end.
  Qed.
  Lemma y_cell w h txt border ln align fill l u s : sinv s -> both s (cell_body w h txt border ln align fill l u s).
  Proof.
    intros Hi. unfold cell_body. cbv zeta.
    set (ww := if neq _ _ _ then _ else w).
    pose proof (cell_ops_mute ww h txt border fill align s) as Ho. set (ops := _ ++ _) in *. clearbody ops.
    set (s1 := match txt with [] => s | _ :: _ => _ end).
    assert (H : both s s1) by (unfold s1; destruct txt; [yy|]; destruct (_ || _); [now apply y_link|yy]).
    clearbody s1. eapply y_trans; [exact H|]. intros Hi1.
    assert (H2 : both s1 (match ops with [] => s1 | _ => emit ops s1 end)) by (destruct ops; [yy|now apply y_mute]).
    eapply y_trans; [exact H2|]. intros Hi2. set (s2 := match ops with [] => s1 | _ => _ end) in *. clearbody s2.
    destruct (ln >? 0); yy.
  Qed.
  Lemma y_image id x y w h negx l u s : sinv s -> both s (image_place id x y w h negx l u s).
  Proof.
    intros Hi. unfold image_place. cbv zeta. set (xx := if negx then x else _). clearbody xx.
    match goal with |- context [emit [Save; ?a; ?b; Restore] s] =>
      assert (H : both s (emit [Save; a; b; Restore] s)) by (apply y_mute; [exact (mute_block [a; b] eq_refl)|exact Hi]) end.
    destruct (_ || _); [|exact H]. eapply y_trans; [exact H|]. intros. now apply y_link.
  Qed.

  Lemma y_state1 s s' : t_gfx s' = t_gfx s -> pageno s' = pageno s -> l_pages (t_life s') = l_pages (t_life s) ->
    (failed s = true -> failed s' = true) -> l_state (t_life s') <> 2 -> sinv s -> both s s'.
  Proof.
    intros E0 E1 E2 E3 E4 (H1 & H2 & H3 & H4). split; [|split; [lia|auto]].
    unfold sinv, last. rewrite E1, E2. repeat split; auto. intros. contradiction.
  Qed.

  Lemma y_home s : sinv s -> both s (set_home s).
  Proof. intros Hi. unfold set_home, set_y, set_x. cbv zeta. yy. Qed.

  Lemma y_prim s s' : prim core_font asm flat (fun _ => True) s s' -> sinv s -> both s s'.
  Proof.
    intros H Hi. destruct H; try solve [yy].
    - eapply y_simple; eauto. now apply okc_self in H0.
    - unfold end_page. eapply y_trans; [now apply y_end_layer|]. intros Hi1.
      apply y_state1; try reflexivity; auto. cbn. discriminate.
    - (* start_page *) unfold start_page. cbv zeta. destruct Hi as (H1 & H2 & H3 & H4). fold (last s). rewrite <- H1, Nat.eqb_refl.
      assert (Hi : sinv s) by (repeat split; auto).
      destruct (_ =? 0); [|now apply y_refl]. apply y_state1; try reflexivity; auto. cbn. discriminate.
    - now apply y_new.
    - now apply y_put_back.
    - unfold set_home, set_y, set_x. cbv zeta. yy.
    - unfold end_doc in H0. destruct (failed s) eqn:Hf; [injection H0 as <-; now apply y_refl|].
      destruct (asm s) as [[b [e|]]|]; [| |discriminate]; injection H0 as <-; apply y_state1; try reflexivity; auto; try congruence;
        cbn; rewrite ?H; discriminate.
    - destruct w as [|m e]; cbn [write_to]; (apply y_life; [reflexivity|reflexivity|auto|auto|reflexivity|reflexivity|reflexivity|exact Hi]).
    - now apply y_cell.
    - now apply y_image.
  Qed.

  Theorem y_run n p s b s' : okp flat p -> hooks_ok flat s -> sinv s -> run core_font asm n p s = Some (b, s') -> both s s' /\ hooks_ok flat s'.
  Proof.
    intros Hp Hh Hi H.
    destruct (run_good core_font asm flat sinv srel (fun _ => True)) with (n := n) (p := p) (s := s) (b := b) (s' := s')
      as (H1 & H2 & R); auto.
    - intros s0 _. split; auto.
    - intros a c d [A1 A2] [B1 B2]. split; [lia|auto].
    - intros s0 s1 Hp0 _ Hi0. exact (y_prim _ _ Hp0 Hi0).
    - split; [|exact H1]. split; assumption.
  Qed.
End Sync.
