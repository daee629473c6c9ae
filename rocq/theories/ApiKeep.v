(** What a page break keeps: the fonts, the colors, the line width. *)
From Verif Require Import Base TextModel ApiModel ApiProofs ApiErr ApiQuiet ApiTurn.
From Coq Require Import String.
Local Open Scope string_scope.
Local Open Scope list_scope.
Local Open Scope Z_scope.

(** ** Strings *)
Lemma upper_upper b : upper (upper b) = upper b.
Proof.
  unfold upper. rewrite map_map. apply map_ext. intros c. unfold up1.
  destruct ((97 <=? c) && (c <=? 122)) eqn:E; [|now rewrite E].
  destruct ((97 <=? c - 32) && (c - 32 <=? 122)) eqn:E2; [lia|reflexivity].
Qed.
Lemma lower_lower b : lower (lower b) = lower b.
Proof.
  unfold lower. rewrite map_map. apply map_ext. intros c. unfold low1.
  destruct ((65 <=? c) && (c <=? 90)) eqn:E; [|now rewrite E].
  destruct ((65 <=? c + 32) && (c + 32 <=? 90)) eqn:E2; [lia|reflexivity].
Qed.
Lemma upper_app a b : upper (a ++ b) = upper a ++ upper b.
Proof. apply map_app. Qed.

Lemma has_app c a b : has c (a ++ b) = has c a || has c b.
Proof. unfold has. apply existsb_app. Qed.
Lemma without_app c a b : without c (a ++ b) = without c a ++ without c b.
Proof. unfold without. apply filter_app. Qed.
Lemma without_has c b : has c (without c b) = false.
Proof.
  unfold has, without. induction b as [|x b IH]; cbn; [reflexivity|].
  destruct (x =? c) eqn:E; cbn; [exact IH|]. rewrite IH. rewrite Z.eqb_sym, E. reflexivity.
Qed.
Lemma has_without c d b : has d b = false -> has d (without c b) = false.
Proof.
  unfold has, without. induction b as [|x b IH]; cbn; [reflexivity|].
  intros H. apply orb_false_iff in H as [H1 H2]. destruct (negb (x =? c)); cbn; [|auto]. rewrite H1. auto.
Qed.
Lemma without_id c b : has c b = false -> without c b = b.
Proof.
  unfold has, without. induction b as [|x b IH]; cbn; [reflexivity|].
  intros H. apply orb_false_iff in H as [H1 H2]. rewrite Z.eqb_sym in H1. rewrite H1. cbn. now rewrite IH.
Qed.
Lemma upper_without c b : upper b = b -> upper (without c b) = without c b.
Proof.
  unfold upper, without. induction b as [|x b IH]; cbn; [reflexivity|]. intros H. injection H as H1 H2.
  destruct (negb (x =? c)); cbn; rewrite ?H1, ?IH by assumption; reflexivity.
Qed.

(** what SetFont leaves in fontStyle *)
Definition style_ok (b : bytes) : Prop := upper b = b /\ has 85 b = false /\ has 83 b = false /\ beqb b (bs "IB") = false.

Lemma norm_style_ok b : style_ok (norm_style b).
Proof.
  unfold norm_style. cbv zeta.
  set (b1 := upper b). assert (H1 : upper b1 = b1) by apply upper_upper.
  set (b2 := if has 85 b1 then without 85 b1 else b1).
  assert (H2 : upper b2 = b2 /\ has 85 b2 = false).
  { unfold b2. destruct (has 85 b1) eqn:E; [|auto]. split; [now apply upper_without|apply without_has]. }
  clearbody b2. destruct H2 as [H2 H3].
  set (b3 := if has 83 b2 then without 83 b2 else b2).
  assert (H4 : upper b3 = b3 /\ has 85 b3 = false /\ has 83 b3 = false).
  { unfold b3. destruct (has 83 b2) eqn:E; [|auto].
    split; [now apply upper_without|]. split; [now apply has_without|apply without_has]. }
  clearbody b3. destruct H4 as (H4 & H5 & H6).
  destruct (beqb b3 (bs "IB")) eqn:E; [|repeat split; assumption].
  repeat split; reflexivity.
Qed.
Lemma norm_style_id b (u k : bool) : style_ok b ->
  norm_style (b ++ (if u then bs "U" else []) ++ (if k then bs "S" else [])) = b.
Proof.
  intros (H1 & H2 & H3 & H4). unfold norm_style. cbv zeta. rewrite !upper_app, H1.
  replace (upper (if u then bs "U" else [])) with (if u then bs "U" else []) by (destruct u; reflexivity).
  replace (upper (if k then bs "S" else [])) with (if k then bs "S" else []) by (destruct k; reflexivity).
  set (X := b ++ _).
  assert (E1 : (if has 85 X then without 85 X else X) = b ++ (if k then bs "S" else [])).
  { unfold X. rewrite !has_app, H2. destruct u; cbn [orb]; [|destruct k; reflexivity].
    change (has 85 (bs "U")) with true. cbn [orb]. rewrite !without_app, (without_id _ _ H2). destruct k; reflexivity. }
  rewrite E1, has_app, H3.
  destruct k; cbn [orb].
  - change (has 83 (bs "S")) with true. rewrite without_app, (without_id _ _ H3).
    change (without 83 (bs "S")) with (@nil Z). rewrite app_nil_r, H4. reflexivity.
  - change (has 83 []) with false. rewrite app_nil_r, H4. reflexivity.
Qed.
Lemma flags_id b (u k : bool) : style_ok b ->
  has 85 (upper (b ++ (if u then bs "U" else []) ++ (if k then bs "S" else []))) = u /\
  has 83 (without 85 (upper (b ++ (if u then bs "U" else []) ++ (if k then bs "S" else [])))) = k.
Proof.
  intros (H1 & H2 & H3 & H4). rewrite !upper_app, H1, !without_app, !has_app, H2, (without_id _ _ H2), H3.
  destruct u, k; split; reflexivity.
Qed.

(** what SetFont leaves in fontFamily *)
Definition fam_ok (b : bytes) : Prop := lower b = b /\ has 32 b = false.
Lemma fam_escape_id b : has 32 b = false -> fam_escape b = b.
Proof.
  unfold fam_escape. change (bs " ") with [32]. rewrite replace_all_byte.
  unfold has. induction b as [|x b IH]; cbn [existsb flat_map]; [reflexivity|].
  intros H. apply orb_false_iff in H as [H1 H2]. rewrite H1, IH by exact H2. reflexivity.
Qed.
Lemma fam_escape_has b : has 32 (fam_escape b) = false.
Proof.
  unfold fam_escape. change (bs " ") with [32]. rewrite replace_all_byte.
  unfold has. induction b as [|x b IH]; cbn [existsb flat_map]; [reflexivity|].
  rewrite existsb_app, IH, orb_false_r. destruct (Z.eqb_spec 32 x); [reflexivity|].
  cbn [existsb]. rewrite orb_false_r. now apply Z.eqb_neq.
Qed.
Lemma lower_has b : has 32 b = false -> has 32 (lower b) = false.
Proof.
  unfold has, lower. induction b as [|x b IH]; [reflexivity|]. cbn [existsb map]. intros H. apply orb_false_iff in H as [H1 H2].
  rewrite IH by exact H2. rewrite orb_false_r. apply Z.eqb_neq. apply Z.eqb_neq in H1. unfold low1. destruct (_ && _) eqn:E; lia.
Qed.
Lemma fam_escape_ok b : fam_ok (lower (fam_escape b)).
Proof. split; [apply lower_lower|]. apply lower_has, fam_escape_has. Qed.

Section Fonts.
  Context {A : arith}.
  Implicit Types s : st A.

  (** the current font is the one its family and style name *)
  Definition font_ok (f : @fnt A) : Prop :=
    f_fam f = [] \/ (fam_ok (f_fam f) /\ style_ok (f_style f) /\ assoc (f_fam f ++ f_style f) (f_table f) = Some (f_cur f)).
  Definition grows (a b : @fnt A) : Prop := forall k fd, assoc k (f_table a) = Some fd -> assoc k (f_table b) = Some fd.

  Lemma assoc_app {B} k (l1 l2 : list (bytes * B)) : assoc k (l1 ++ l2) = match assoc k l1 with Some v => Some v | None => assoc k l2 end.
  Proof. induction l1 as [|[k' v] l1 IH]; cbn; [reflexivity|]. destruct (beqb k k'); auto. Qed.

  (** a change of the document with respect to fonts and the unit *)
  Definition count s : nat := List.length (l_pages (t_life s)).
  Definition fstep s s' : Prop := (x_k (t_geo s') = x_k (t_geo s) /\ (count s <= count s')%nat) /\ grows (t_fnt s) (t_fnt s') /\ (font_ok (t_fnt s) -> font_ok (t_fnt s')).
  Lemma fs_refl s : fstep s s.
  Proof. unfold fstep, grows. auto. Qed.
  Lemma fs_trans a b c : fstep a b -> fstep b c -> fstep a c.
  Proof. unfold fstep, grows. intros ((A1 & A0) & A2 & A3) ((B1 & B0) & B2 & B3). repeat split; [congruence|lia|auto|auto]. Qed.
  Lemma fs_same s s' : x_k (t_geo s') = x_k (t_geo s) -> count s' = count s -> t_fnt s' = t_fnt s -> fstep s s'.
  Proof. intros E1 E0 E2. unfold fstep, grows. rewrite E2, E0. auto. Qed.

  Lemma add_font_fs fam sty r s : fstep s (add_font fam sty r s).
  Proof.
    unfold add_font. destruct (failed s); [apply fs_refl|]. cbv zeta.
    destruct (assoc _ _) eqn:E; [apply fs_refl|]. destruct r; [|apply fs_same; reflexivity].
    assert (G : grows (t_fnt s) (sf_table (f_table (t_fnt s) ++ [(font_key (fam_escape fam) sty, f)]) (t_fnt s))).
    { intros k fd H. cbn. rewrite assoc_app, H. reflexivity. }
    split; [split; reflexivity|]. split; [exact G|].
    intros [H|(H1 & H2 & H3)]; [now left|]. right. split; [exact H1|]. split; [exact H2|]. cbn -[sf_table]. now apply G.
  Qed.

  (** SetFont, when it does not fail: the font is selected *)
  Lemma select_font_fs fam sty fd size s : (fam = [] \/ fam_ok fam) -> style_ok sty -> assoc (fam ++ sty) (f_table (t_fnt s)) = Some fd ->
    fstep s (select_font fam sty fd size s).
  Proof.
    intros H1 H2 H3. unfold select_font. unfold fstep, count. rewrite eop_geo, eop_fnt, eop_count. split; [split; reflexivity|].
    split; [intros k d H; exact H|]. intros _. destruct H1 as [->|H1]; [now left|]. right. cbn. auto.
  Qed.

  Lemma fs_emit l s s' : fstep s s' -> fstep s (emit l s').
  Proof. unfold fstep, count. now rewrite emit_geo, emit_fnt, emit_count. Qed.
  Lemma fs_eop l s s' : fstep s s' -> fstep s (emit_on_page l s').
  Proof. unfold fstep, count. now rewrite eop_geo, eop_fnt, eop_count. Qed.
  Lemma fs_link a b c d e f s s' : fstep s s' -> fstep s (new_link a b c d e f s').
  Proof. unfold fstep, count. now rewrite nl_geo, nl_fnt, nl_count. Qed.
  Lemma fs_gfx u s s' : fstep s s' -> fstep s (on_gfx u s'). Proof. exact (fun H => H). Qed.
  Lemma fs_nest u s s' : fstep s s' -> fstep s (on_nest u s'). Proof. exact (fun H => H). Qed.
  Lemma fs_hook u s s' : fstep s s' -> fstep s (on_hook u s'). Proof. exact (fun H => H). Qed.
  Lemma fs_life u s s' : (forall r, (List.length (l_pages r) <= List.length (l_pages (u r)))%nat) -> fstep s s' -> fstep s (on_life u s').
  Proof. intros H ((H1 & H2) & H3). split; [|exact H3]. split; [exact H1|]. unfold count in *. cbn. specialize (H (t_life s')). lia. Qed.
  Lemma fs_stlinks u s s' : fstep s s' -> fstep s (st_links u s'). Proof. exact (fun H => H). Qed.
  Lemma fs_err e s s' : fstep s s' -> fstep s (force_err e s'). Proof. exact (fun H => H). Qed.
  Lemma fs_log e s s' : fstep s s' -> fstep s (log e s'). Proof. exact (fun H => H). Qed.
  Lemma fs_turn s s' : fstep s s' -> fstep s (turn s'). Proof. exact (fun H => H). Qed.
  Lemma fs_geo u s s' : (forall g, x_k (u g) = x_k g) -> fstep s s' -> fstep s (on_geo u s').
  Proof. intros H. unfold fstep, count. cbn. now rewrite H. Qed.
  Lemma fs_size u s s' : (forall f, f_fam (u f) = f_fam f /\ f_style (u f) = f_style f /\ f_cur (u f) = f_cur f /\ f_table (u f) = f_table f) ->
    fstep s s' -> fstep s (on_fnt u s').
  Proof.
    intros H. unfold fstep, count, grows, font_ok. cbn. destruct (H (t_fnt s')) as (E1 & E2 & E3 & E4). now rewrite E1, E2, E3, E4.
  Qed.

  Ltac fs :=
    match goal with
    | |- fstep ?s ?s => apply fs_refl
    | |- fstep _ (emit _ _) => apply fs_emit; fs
    | |- fstep _ (emit_on_page _ _) => apply fs_eop; fs
    | |- fstep _ (new_link _ _ _ _ _ _ _) => apply fs_link; fs
    | |- fstep _ (on_gfx _ _) => apply fs_gfx; fs
    | |- fstep _ (on_nest _ _) => apply fs_nest; fs
    | |- fstep _ (on_hook _ _) => apply fs_hook; fs
    | |- fstep _ (on_life _ _) => apply fs_life; [intros ?; cbn -[upd]; rewrite ?length_upd, ?app_length; lia|]; fs
    | |- fstep _ (st_links _ _) => apply fs_stlinks; fs
    | |- fstep _ (force_err _ _) => apply fs_err; fs
    | |- fstep _ (log _ _) => apply fs_log; fs
    | |- fstep _ (turn _) => apply fs_turn; fs
    | |- fstep _ (on_geo _ _) => apply fs_geo; [intros g; cbv zeta; repeat (match goal with |- context [if ?b then _ else _] => destruct b end); reflexivity|]; fs
    | |- fstep _ (on_fnt _ _) => apply fs_size; [intros f; repeat split; reflexivity|]; fs
    | |- fstep _ (match ?b with _ => _ end) => destruct b; fs
    end.

  Lemma end_layer_fs s : fstep s (end_layer s).
  Proof. unfold end_layer. fs. Qed.
  Lemma end_page_fs s : fstep s (end_page s).
  Proof. unfold end_page. apply fs_life; [intros; reflexivity|]. apply fs_turn, end_layer_fs. Qed.
  Lemma transform_fs a b c d e f s : fstep s (transform a b c d e f s).
  Proof. unfold transform, fail. split_ifs; fs. Qed.

  Lemma begin_page_fs o w h s : fstep s (begin_page o w h s).
  Proof.
    unfold begin_page. destruct (failed s); [apply fs_refl|]. cbv zeta.
    assert (H : fstep s (fresh_page s)).
    { unfold fresh_page. cbv zeta. split; [split; [reflexivity|]; unfold count; cbn; rewrite app_length; cbn; lia|]. split; [intros k d H; exact H|]. intros _. now left. }
    eapply fs_trans; [exact H|]. unfold note_size. cbv zeta.
    assert (G : forall o', fstep (fresh_page s) (on_geo (resize o' w h) (fresh_page s))).
    { intros o'. apply fs_geo; [|apply fs_refl]. intros g. unfold resize. destruct (_ || _); [|reflexivity]. destruct (if beqb _ _ then _ else _); reflexivity. }
    destruct (_ || _); [apply fs_life; [intros ?; cbn -[upd]; rewrite length_upd; lia|]|]; apply G.
  Qed.
  Context (core_font : bytes -> bytes -> fontdef + bytes) (asm : st A -> option (bytes * option error)).

  Lemma core_fam_ok fam : existsb (beqb fam) core_families = true -> fam_ok fam.
  Proof.
    intros H. apply existsb_exists in H as (x & Hx & E). apply beqb_eq in E as ->.
    unfold core_families in Hx. cbn [In] in Hx. repeat destruct Hx as [<-|Hx]; try (split; reflexivity). destruct Hx.
  Qed.

  Lemma set_font_fs fam sty size s : font_ok (t_fnt s) -> fstep s (set_font core_font fam sty size s).
  Proof.
    intros Hs. unfold set_font. destruct (failed s) eqn:F; [apply fs_refl|]. cbv zeta.
    set (fam1 := match fam_escape fam with [] => f_fam (t_fnt s) | _ => lower (fam_escape fam) end).
    assert (Hf : fam1 = [] \/ fam_ok fam1).
    { unfold fam1. destruct (fam_escape fam) eqn:E; [|right; rewrite <- E; apply fam_escape_ok].
      destruct Hs as [H|H]; [now left|right; apply H]. }
    clearbody fam1. set (s1 := on_fnt _ s). assert (H1 : fstep s s1).
    { split; [split; reflexivity|]. split; [intros k d H; exact H|]. intros H. exact H. }
    set (sty1 := norm_style sty). pose proof (norm_style_ok sty) as Hsty. fold sty1 in Hsty. clearbody sty1.
    set (size1 := if neq A size (ofZ A 0) then _ else size). clearbody size1.
    eapply fs_trans; [exact H1|]. clearbody s1. clear Hs H1 F s.
    destruct (assoc (fam1 ++ sty1) _) eqn:E1; [now apply select_font_fs|].
    set (fam2 := if beqb fam1 (bs "arial") then _ else fam1).
    destruct (existsb (beqb fam2) core_families) eqn:E2; [|apply fs_same; reflexivity].
    apply core_fam_ok in E2. clearbody fam2.
    set (fam3 := if beqb fam2 (bs "symbol") then _ else fam2).
    assert (H3 : fam_ok fam3) by (unfold fam3; destruct (beqb _ _); [split; reflexivity|exact E2]). clearbody fam3.
    set (sty2 := if beqb fam3 (bs "zapfdingbats") then [] else sty1).
    assert (H4 : style_ok sty2) by (unfold sty2; destruct (beqb _ _); [repeat split|exact Hsty]). clearbody sty2.
    destruct (assoc (fam3 ++ sty2) (f_table (t_fnt s1))) eqn:E3; [apply select_font_fs; auto|].
    pose proof (add_font_fs fam3 sty2 (core_font fam3 sty2) s1) as Ha. set (s2 := add_font _ _ _ s1) in *. clearbody s2.
    destruct (failed s2); [exact Ha|]. destruct (assoc (fam3 ++ sty2) (f_table (t_fnt s2))) eqn:E4; [|exact Ha].
    eapply fs_trans; [exact Ha|]. apply select_font_fs; auto.
  Qed.

  Lemma put_font_fs v s : font_ok (t_fnt s) -> fstep s (put_font core_font v s).
  Proof. intros. unfold put_font. destruct (v_fam v); [apply fs_refl|now apply set_font_fs]. Qed.

  (** the saved font is put back exactly *)
  Lemma put_font_back v s0 s : v = save_state s0 -> failed s = false -> f_fam (t_fnt s0) <> [] -> font_ok (t_fnt s0) ->
    neq A (f_pt (t_fnt s0)) (ofZ A 0) = false -> grows (t_fnt s0) (t_fnt s) ->
    let s' := put_font core_font v s in
    f_fam (t_fnt s') = f_fam (t_fnt s0) /\ f_style (t_fnt s') = f_style (t_fnt s0) /\ f_ul (t_fnt s') = f_ul (t_fnt s0) /\
    f_so (t_fnt s') = f_so (t_fnt s0) /\ f_pt (t_fnt s') = f_pt (t_fnt s0) /\ f_cur (t_fnt s') = f_cur (t_fnt s0) /\
    f_size (t_fnt s') = ndiv A (f_pt (t_fnt s0)) (x_k (t_geo s)).
  Proof.
    intros -> Hf Hn [Ho|(H1 & H2 & H3)] Hpt Hg; [contradiction|]. cbv zeta. unfold put_font. cbn [v_fam save_state v_style v_pt].
    destruct (f_fam (t_fnt s0)) as [|c fam] eqn:Ef; [contradiction|]. rewrite <- Ef in *. clear Hn.
    assert (E : forall a b : st A, (match f_fam (t_fnt s0) with [] => a | _ :: _ => b end) = b) by (intros a b; rewrite Ef; reflexivity).
    unfold set_font. rewrite Hf, Hpt. destruct H1 as [H1 H1']. rewrite (fam_escape_id _ H1'), H1.
    rewrite (norm_style_id _ (f_ul (t_fnt s0)) (f_so (t_fnt s0)) H2).
    destruct (flags_id _ (f_ul (t_fnt s0)) (f_so (t_fnt s0)) H2) as [E1 E2]. rewrite E1, E2. cbv zeta.
    assert (EF : match f_fam (t_fnt s0) with [] => f_fam (t_fnt s) | _ :: _ => f_fam (t_fnt s0) end = f_fam (t_fnt s0)) by (rewrite Ef; reflexivity).
    rewrite EF. cbn [on_fnt st_fnt t_fnt sf_so sf_ul f_table].
    rewrite (Hg _ _ H3). unfold select_font. rewrite eop_fnt. cbn. repeat split; reflexivity.
  Qed.

  Lemma simple_fs c s s' : simple c = true -> step core_font asm no_runner c s = Some s' -> font_ok (t_fnt s) -> fstep s s'.
  Proof.
    intros H1. destruct c; try discriminate H1; clear H1; cbn [step]; intros HH Hi; try (injection HH as <-);
      try (apply set_font_fs; exact Hi);
      try solve [unfold transform_scale, transform_rotate, transform_skew, transform_translate; cbv zeta; split_ifs; try apply transform_fs; fs];
      try solve [open_simple; try destruct (failed s); split_ifs; fs].
    - apply add_font_fs.
    - revert HH. unfold set_link. cbv zeta. destruct (_ && _); [|discriminate]. intros [= <-]. fs.
  Qed.

  Lemma font_ok_step s s' : font_ok (t_fnt s) -> fstep s s' -> font_ok (t_fnt s').
  Proof. intros H (_ & _ & H2). auto. Qed.

  Lemma open_page_fs v s : font_ok (t_fnt s) -> fstep s (fst (open_page core_font v s)).
  Proof.
    intros Hi. unfold open_page. cbv zeta.
    assert (H1 : fstep s (open_lines v s)) by (unfold open_lines; cbv zeta; destruct (g_dash _); fs).
    assert (H2 : fstep s (put_font core_font v (open_lines v s))).
    { eapply fs_trans; [exact H1|]. apply put_font_fs. eapply font_ok_step; eauto. }
    destruct (stops _ _); cbn; [exact H2|]. eapply fs_trans; [exact H2|].
    unfold put_text, open_fill, open_draw. cbv zeta. split_ifs; fs.
  Qed.
  Lemma back_colors_fs v s : fstep s (put_text v (back_fill v (back_draw v s))).
  Proof.
    unfold put_text. apply fs_gfx. assert (H : fstep s (back_draw v s)) by (unfold back_draw; fs).
    eapply fs_trans; [exact H|]. unfold back_fill. fs.
  Qed.
  Lemma back_width_fs v s : fstep s (back_width v s).
  Proof. unfold back_width. fs. Qed.
  Lemma put_back_fs v s : font_ok (t_fnt s) -> fstep s (put_back core_font v s).
  Proof.
    intros Hi. unfold put_back. cbv zeta. pose proof (back_width_fs v s) as H1.
    assert (H2 : fstep s (put_font core_font v (back_width v s))).
    { eapply fs_trans; [exact H1|]. apply put_font_fs. eapply font_ok_step; eauto. }
    destruct (stops _ _); cbn; [exact H2|]. eapply fs_trans; [exact H2|]. apply back_colors_fs.
  Qed.
  Lemma cell_fs w h txt border ln align fill l u s : fstep s (cell_body w h txt border ln align fill l u s).
  Proof.
    unfold cell_body. cbv zeta. set (ops := _ ++ _). clearbody ops.
    set (s1 := match txt with [] => s | _ :: _ => _ end).
    assert (H : fstep s s1) by (unfold s1; destruct txt; [fs|]; destruct (_ || _); fs). clearbody s1.
    eapply fs_trans; [exact H|]. destruct (ln >? 0); fs.
  Qed.

  Lemma prim_fs P V s s' : prim core_font asm P V s s' -> font_ok (t_fnt s) -> fstep s s'.
  Proof.
    intros H Hi. destruct H; try solve [fs].
    - eapply simple_fs; eauto.
    - apply end_page_fs.
    - unfold start_page. cbv zeta. split_ifs; fs.
    - eapply fs_trans; [apply begin_page_fs|]. apply open_page_fs. eapply font_ok_step; [exact Hi|]. apply begin_page_fs.
    - now apply put_back_fs.
    - unfold set_home, set_y, set_x. cbv zeta. fs.
    - unfold end_doc in H0. destruct (failed s); [injection H0 as <-; fs|].
      destruct (asm s) as [[b [e|]]|]; [| |discriminate]; injection H0 as <-; fs.
    - destruct w; cbn [write_to]; fs.
    - apply cell_fs.
    - unfold image_place. cbv zeta. set (xx := if negx then x else _). clearbody xx. fs.
  Qed.

  Lemma any_calls (P : call A -> Prop) : (forall c, P c) -> forall p, okp P p.
  Proof.
    intros HP. fix IH 1. intros [b|c k]; [exact I|]. split; [|intros o; apply IH].
    destruct c; (split; [apply HP|]); try exact I;
      try (match goal with |- match ?p with _ => _ end => destruct p; [apply IH|exact I] end).
    - destruct p; [|exact I]. intros b. apply IH.
    - apply IH.
  Qed.
  Lemma any_hooks (P : call A -> Prop) : (forall c, P c) -> forall s, hooks_ok P s.
  Proof. intros HP s. repeat split; intros; now apply any_calls. Qed.

  (** every program, with any registered functions *)
  Lemma run_fs n p s b s' : font_ok (t_fnt s) -> run core_font asm n p s = Some (b, s') -> fstep s s'.
  Proof.
    intros Hi H.
    destruct (run_good core_font asm (fun _ => True) (fun s => font_ok (t_fnt s)) fstep (fun _ => True)) with (n := n) (p := p) (s := s) (b := b) (s' := s')
      as (_ & _ & R); auto.
    - intros s0 _. apply fs_refl.
    - apply fs_trans.
    - intros s0 s1 Hp _ H0. pose proof (prim_fs _ _ _ _ Hp H0) as R. split; [|exact R]. now apply (font_ok_step s0).
    - now apply any_calls.
    - now apply any_hooks.
  Qed.
End Fonts.
