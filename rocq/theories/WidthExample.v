(** Fonts for C67 and C68. *)
From Verif Require Import Base KeyMap CidSpec CidModel CidProofs CidProps.
From Verif Require Import DocModel DocProofs DocSort TtfSpec TtfModel TtfProofs TtfProps TtfCmap CutSpec CutModel CutProofs CutClosure CutRead CutGlyphs CutSymbols CutCmap CutOut CutMain CutProps CutExample WidthModel WidthProofs WidthProps ResSpec ResProofs2.
From Coq Require Import String.
Open Scope Z_scope.
Notation length := List.length.
Notation concat := List.concat.

(** exact arithmetic *)
Definition ex_M : fmath := {| fm_trunc := fun em v => Z.quot (1000 * v) em; fm_round := fun em v => (2000 * v + em) / (2 * em);
  fm_round' := fun em v => (2000 * v + em) / (2 * em); fm_stem := fun w => 50 + w * w / 4225 |}.
(** the font of CutExample with 1000 units per em, names and these metrics *)
Definition w_font (hmtx : bytes) : bytes :=
  match assemble [(bs "head", repeat 0 18 ++ [3; 232] ++ repeat 0 34); (bs "hhea", ex_hhea); (bs "maxp", ex_maxp); (bs "hmtx", hmtx); (bs "loca", ex_loca); (bs "glyf", ex_glyf);
                  (bs "cmap", ex_cmap); (bs "post", repeat 0 32); (bs "name", [0; 0; 0; 0; 0; 6])] with Ret t => t | _ => [] end.
Definition w_F (hmtx : bytes) : font :=
  {| F_head := tdata (w_font hmtx) 2; F_maxp := ex_maxp; F_hhea := ex_hhea; F_hmtx := hmtx; F_loca := ex_loca; F_glyf := ex_glyf |}.
Definition good : bytes := [1; 244; 0; 10; 2; 88; 0; 20; 0; 30; 0; 40].
(** glyph 1 has the advance width 40000 *)
Definition wide : bytes := [1; 244; 0; 10; 156; 64; 0; 20; 0; 30; 0; 40].
(** glyph 0 has the advance width 0 *)
Definition flat0 : bytes := [0; 0; 0; 10; 2; 88; 0; 20; 0; 30; 0; 40].

Ltac byte_tac := apply Forall_forall; intros x Hx;
  match type of Hx with In _ ?l => assert (H : forallb (fun x => (0 <=? x) && (x <? 256)) l = true) by (vm_compute; reflexivity); rewrite forallb_forall in H; specialize (H x Hx); unfold is_byte; lia end.
Ltac sound_tac := match goal with |- sound_glyphs ?F => constructor;
  [left; vm_compute; reflexivity|vm_compute; discriminate|vm_compute; intuition discriminate|vm_compute; discriminate
  |change (glyph_count F) with 4; intros g Hg; assert (H : forallb (fun g => (loca_at F g <=? loca_at F (g + 1)) && (loca_at F (g + 1) <=? len (F_glyf F))) (range 0 (Z.to_nat 4)) = true) by (vm_compute; reflexivity);
    pose proof (all_range _ _ H g Hg) as X; cbn beta in X; lia
  |change (glyph_count F) with 4; intros g Hg; assert (H : forallb (fun g => (loca_at F (g + 1) - loca_at F g =? 0) || (10 <=? loca_at F (g + 1) - loca_at F g)) (range 0 (Z.to_nat 4)) = true) by (vm_compute; reflexivity);
    pose proof (all_range _ _ H g Hg) as X; cbn beta in X; lia
  |vm_compute; intuition discriminate|vm_compute; discriminate] end.
Lemma good_bytes : Forall is_byte (w_font good). Proof. byte_tac. Qed.
Lemma wide_bytes : Forall is_byte (w_font wide). Proof. byte_tac. Qed.
Lemma flat_bytes : Forall is_byte (w_font flat0). Proof. byte_tac. Qed.
Lemma good_in : font_in (w_font good) (w_F good). Proof. repeat split; apply table_inb_ok; vm_compute; reflexivity. Qed.
Lemma wide_in : font_in (w_font wide) (w_F wide). Proof. repeat split; apply table_inb_ok; vm_compute; reflexivity. Qed.
Lemma flat_in : font_in (w_font flat0) (w_F flat0). Proof. repeat split; apply table_inb_ok; vm_compute; reflexivity. Qed.
Lemma good_cmap : table_in (w_font good) "cmap" ex_cmap. Proof. apply table_inb_ok; vm_compute; reflexivity. Qed.
Lemma wide_cmap : table_in (w_font wide) "cmap" ex_cmap. Proof. apply table_inb_ok; vm_compute; reflexivity. Qed.
Lemma flat_cmap : table_in (w_font flat0) "cmap" ex_cmap. Proof. apply table_inb_ok; vm_compute; reflexivity. Qed.
Lemma good_sound : sound_glyphs (w_F good). Proof. sound_tac. Qed.
Lemma wide_sound : sound_glyphs (w_F wide). Proof. sound_tac. Qed.
Lemma flat_sound : sound_glyphs (w_F flat0). Proof. sound_tac. Qed.
Lemma good_apart : separate_tables (w_font good). Proof. apply separate_ok. vm_compute. reflexivity. Qed.
Lemma flat_apart : separate_tables (w_font flat0). Proof. apply separate_ok. vm_compute. reflexivity. Qed.
Lemma adv_le hm n : glyph_count (w_F hm) = n -> forallb (fun g => advance (w_F hm) g <=? 32767) (range 0 (Z.to_nat n)) = true -> forall g, 0 <= g < glyph_count (w_F hm) -> advance (w_F hm) g <= 32767.
Proof. intros <- H g Hg. pose proof (all_range _ _ H g Hg) as X. cbn beta in X. lia. Qed.
Lemma ex_rounding : rounding ex_M 1000.
Proof. intros v Hv. cbn [ex_M fm_round fm_round']. split; [|reflexivity]. change (2 * 1000) with 2000. split; [apply Z.div_pos; lia|apply Z.div_lt_upper_bound; lia]. Qed.

(** ** C67 *)
Theorem C67_refuted : ~ C67_statement.
Proof.
  intros H. destruct (parse_font ex_M (w_font wide)) as [[m|]| |] eqn:E.
  2-4: apply (f_equal (fun x => match x with Ret (Some _) => true | _ => false end)) in E; vm_compute in E; discriminate.
  destruct (H ex_M (w_font wide) (w_F wide) ex_cmap 12 m E wide_bytes wide_in wide_cmap wide_sound ex_map ltac:(vm_compute; reflexivity)) as (_ & _ & C). specialize (C 66 ltac:(lia)).
  assert (W : match parse_font ex_M (w_font wide) with Ret (Some m) => nth_error (m_cw m) (Z.to_nat 66) | _ => None end = Some 65535) by (vm_compute; reflexivity).
  rewrite E, C in W. vm_compute in W. discriminate.
Qed.
Print Assumptions C67_refuted.
Example C67_case : match parse_font ex_M (w_font good) with Ret (Some m) => map (fun c => nth_error (m_cw m) (Z.to_nat c)) [64; 65; 66; 67] = [Some 0; Some 600; Some 600; Some 0] /\ m_missing m = 500 | _ => False end /\
  Forall is_byte (w_font good) /\ font_in (w_font good) (w_F good) /\ table_in (w_font good) "cmap" ex_cmap /\ sound_glyphs (w_F good) /\ sound_map ex_cmap 12 /\ u16 (F_hhea (w_F good)) 32 = 0 /\
  (forall g, 0 <= g < glyph_count (w_F good) -> advance (w_F good) g <= 32767).
Proof.
  split; [vm_compute; split; reflexivity|]. repeat (split; [first [exact good_bytes | exact good_in | exact good_cmap | exact good_sound | exact ex_map | vm_compute; reflexivity]|]).
  apply (adv_le good 4); vm_compute; reflexivity.
Qed.

(** ** C68 *)
Lemma cid_loop_app cw used a : forall b cid s, cid_loop cw used (a + b) cid s = obind (cid_loop cw used a cid s) (fun s => cid_loop cw used b (cid + Z.of_nat a) s).
Proof.
  induction a as [|a IH]; intros b cid s; cbn [Nat.add cid_loop].
  - cbn [obind]. change (Z.of_nat 0) with 0. now rewrite Z.add_0_r.
  - destruct (cid_width cw used cid) as [ow| |]; cbn [obind]; [|reflexivity|reflexivity]. destruct (match ow with Some w => cid_step cid w s | None => Ret s end) as [s1| |]; cbn [obind]; [|reflexivity|reflexivity].
    rewrite IH. replace (cid + 1 + Z.of_nat a) with (cid + Z.of_nat (S a)) by lia. reflexivity.
Qed.
(** A character beyond U+FFFF in the text: writing the document panics. *)
Theorem C68_beyond_the_table : forall (cw : list Z) (used : Z -> Z) (last : Z), (1 <= length cw)%nat -> Z.of_nat (length cw) <= last -> w_line cw used last = Panic.
Proof.
  intros cw used last H1 Hl. unfold w_line. replace (Z.to_nat last) with ((length cw - 1) + S (Z.to_nat last - length cw))%nat by lia. rewrite cid_loop_app.
  destruct (loop_segs cw used (length cw - 1) 1 ltac:(lia) ltac:(lia)) as (s & l & E & _). unfold c0 in E. rewrite E. cbn [obind cid_loop].
  unfold cid_width. replace (nth_error cw (Z.to_nat (1 + Z.of_nat (length cw - 1)))) with (@None Z) by (symmetry; apply nth_error_None; lia). reflexivity.
Qed.
Print Assumptions C68_beyond_the_table.

Definition two_planes : list Z := [65; 65536].
Definition w_cut (hm : bytes) (used : list Z) : cut := match cut_font 5 (w_font hm) used with Ret (Some c) => c | _ => {| c_font := []; c_runes := []; c_last := 0; c_file := [] |} end.
Theorem C68_refuted : ~ C68_statement.
Proof.
  intros H. destruct (parse_font ex_M (w_font good)) as [[m|]| |] eqn:E.
  2-4: apply (f_equal (fun x => match x with Ret (Some _) => true | _ => false end)) in E; vm_compute in E; discriminate.
  assert (AL : forall g, 0 <= g < glyph_count (w_F good) -> advance (w_F good) g <= 32767) by (apply (adv_le good 4); vm_compute; reflexivity).
  destruct (H ex_M (w_font good) (w_F good) ex_cmap 12 m 5%nat two_planes (w_cut good two_planes) E) as (line & L & gm & G & W & _); try exact good_bytes; try exact good_in; try exact good_cmap; try exact good_sound; try exact ex_map; try exact good_apart; try exact AL.
  - vm_compute. reflexivity.
  - vm_compute. reflexivity.
  - replace (units_per_em (w_F good)) with 1000 by (vm_compute; reflexivity). exact ex_rounding.
  - cbn. lia.
  - vm_compute. reflexivity.
  - destruct (C67_widths_partial ex_M (w_font good) (w_F good) ex_cmap 12 m E good_bytes good_in good_cmap good_sound ex_map ltac:(vm_compute; reflexivity) AL) as (CL & _).
    rewrite C68_beyond_the_table in W; [discriminate| |]; rewrite CL; [lia|]. replace (c_last (w_cut good two_planes)) with 65536 by (vm_compute; reflexivity). lia.
Qed.
Print Assumptions C68_refuted.
(** A font with a glyph 0 of width 0: a character without glyph, here the space, is 1000 wide to a reader. *)
Theorem C68_missing_refuted : exists m c line, parse_font ex_M (w_font flat0) = Ret (Some m) /\ cut_font 5 (w_font flat0) [32; 65] = Ret (Some c) /\
  Forall is_byte (w_font flat0) /\ font_in (w_font flat0) (w_F flat0) /\ table_in (w_font flat0) "cmap" ex_cmap /\ sound_glyphs (w_F flat0) /\ sound_map ex_cmap 12 /\ separate_tables (w_font flat0) /\
  w_line (m_cw m) (runes_of [32; 65]) (c_last c) = Ret line /\ line = bs "/W [ 65 65 600 ]" /\ m_missing m = 0 /\ advance (w_F flat0) 0 = 0 /\ char_glyph ex_cmap 12 32 = 0.
Proof.
  destruct (parse_font ex_M (w_font flat0)) as [[m|]| |] eqn:E.
  2-4: apply (f_equal (fun x => match x with Ret (Some _) => true | _ => false end)) in E; vm_compute in E; discriminate.
  exists m, (w_cut flat0 [32; 65]), (bs "/W [ 65 65 600 ]"). split; [reflexivity|]. split; [vm_compute; reflexivity|].
  repeat (split; [first [exact flat_bytes | exact flat_in | exact flat_cmap | exact flat_sound | exact ex_map | exact flat_apart]|]).
  assert (W : match parse_font ex_M (w_font flat0) with Ret (Some m) => match w_line (m_cw m) (runes_of [32; 65]) 65 with Ret l => beqb l (bs "/W [ 65 65 600 ]") && (m_missing m =? 0) | _ => false end | _ => false end = true) by (vm_compute; reflexivity).
  rewrite E in W. replace (c_last (w_cut flat0 [32; 65])) with 65 by (vm_compute; reflexivity). destruct (w_line (m_cw m) (runes_of [32; 65]) 65) as [l| |]; [|discriminate W|discriminate W]. apply andb_prop in W as [W1 W2]. apply beqb_eq in W1.
  split; [now rewrite W1|]. split; [reflexivity|]. split; [lia|]. split; vm_compute; reflexivity.
Qed.
Example C68_case : match parse_font ex_M (w_font good) with Ret (Some m) => w_line (m_cw m) (runes_of [65; 67]) 67 = Ret (bs "/W [ 65 66 600 ]") | _ => False end /\
  cut_font 5 (w_font good) [65; 67] = Ret (Some (w_cut good [65; 67])) /\ c_last (w_cut good [65; 67]) = 67 /\ rounding ex_M (units_per_em (w_F good)) /\ len (c_font (w_cut good [65; 67])) < 2 ^ 32 /\
  fm_round ex_M (units_per_em (w_F good)) (advance (w_F good) 0) <> 0.
Proof.
  split; [vm_compute; reflexivity|]. split; [vm_compute; reflexivity|]. split; [vm_compute; reflexivity|]. split; [replace (units_per_em (w_F good)) with 1000 by (vm_compute; reflexivity); exact ex_rounding|].
  split; [vm_compute; reflexivity|]. vm_compute. discriminate.
Qed.
