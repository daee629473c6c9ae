(** C74: what TtfParse finds in a font. *)
From Verif Require Import Base DocModel TtfSpec TtfModel TtfProofs TtfCmap CutSpec CutModel CutProofs CutCmap CutRead CutExample FontSpec FontModel FontProofs.
From Coq Require Import String.
Open Scope Z_scope.
Notation length := List.length.
Notation concat := List.concat.

(** the values returned are those of the tables; characters without a glyph are not in the map *)
Record describes (T : tables) (o : Z) (name : bytes) (r : ttf) : Prop := {
  de_em : tt_em r = u16 (T_head T) 18;
  de_box : tt_box r = (i16 (T_head T) 36, i16 (T_head T) 38, i16 (T_head T) 40, i16 (T_head T) 42);
  de_name : tt_name r = name;
  de_embed : tt_embed r = true <-> u16 (T_os2 T) 8 <> 2 /\ Z.testbit (u16 (T_os2 T) 8) 9 = false;
  de_bold : tt_bold r = Z.testbit (u16 (T_os2 T) 62) 5;
  de_heights : tt_asc r = i16 (T_os2 T) 68 /\ tt_desc r = i16 (T_os2 T) 70;
  de_cap : tt_cap r = (if u16 (T_os2 T) 0 <? 2 then 0 else i16 (T_os2 T) 88);
  de_angle : tt_angle r = i16 (T_post T) 4;
  de_underline : tt_up r = i16 (T_post T) 8 /\ tt_ut r = i16 (T_post T) 10;
  de_fixed : tt_fixed r = true <-> u32 (T_post T) 12 <> 0;
  de_widths : len (tt_widths r) = glyphs T /\ forall g, 0 <= g < glyphs T -> nth_error (tt_widths r) (Z.to_nat g) = Some (advance_of T g);
  de_chars : forall c, 0 <= c < 65535 -> chr (tt_chars r) c = (if lookup4 (T_cmap T) o c =? 0 then None else Some (lookup4 (T_cmap T) o c)) }.
Definition C74_statement : Prop := forall f T o name,
  Forall is_byte f -> extract f 0 4 = [0; 1; 0; 0] -> 12 + 16 * num_tables f <= len f -> tables_in f T -> complete_font T o name ->
  exists r, ttf_parse f = Ret (Some r) /\ describes T o name r.

Lemma land_bit x n : 0 <= n -> (Z.land x (2 ^ n) =? 0) = negb (Z.testbit x n).
Proof.
  intros Hn. destruct (Z.testbit x n) eqn:E; cbn [negb].
  - apply Z.eqb_neq. intros H. assert (X : Z.testbit (Z.land x (2 ^ n)) n = false) by (rewrite H; apply Z.bits_0). rewrite Z.land_spec, E, Z.pow2_bits_true in X by lia. discriminate.
  - apply Z.eqb_eq. apply Z.bits_inj'. intros m Hm. rewrite Z.land_spec, Z.bits_0, Z.pow2_bits_eqb by lia. destruct (Z.eqb_spec n m) as [->|]; [now rewrite E|apply andb_false_r].
Qed.
(** Proved for fonts with at most 32768 glyphs. *)
Theorem C74_values_partial : forall f T o name,
  Forall is_byte f -> extract f 0 4 = [0; 1; 0; 0] -> 12 + 16 * num_tables f <= len f -> tables_in f T -> complete_font T o name ->
  glyphs T <= 32768 ->
  exists r, ttf_parse f = Ret (Some r) /\ describes T o name r.
Proof.
  intros f T o name Hf Hv Hd (H1 & H2 & H3 & H4 & H5 & H6 & H7 & H8) C HG. unfold num_tables in Hd. pose proof (u16_range f 4 Hf) as NT.
  apply (table_place f Hf) in H1 as (p1 & n1 & P1 & E1 & A1 & B1 & L1 & N1); [|exact Hd]. apply (table_place f Hf) in H2 as (p2 & n2 & P2 & E2 & A2 & B2 & L2 & N2); [|exact Hd].
  apply (table_place f Hf) in H3 as (p3 & n3 & P3 & E3 & A3 & B3 & L3 & N3); [|exact Hd]. apply (table_place f Hf) in H4 as (p4 & n4 & P4 & E4 & A4 & B4 & L4 & N4); [|exact Hd].
  apply (table_place f Hf) in H5 as (p5 & n5 & P5 & E5 & A5 & B5 & L5 & N5); [|exact Hd]. apply (table_place f Hf) in H6 as (p6 & n6 & P6 & E6 & A6 & B6 & L6 & N6); [|exact Hd].
  apply (table_place f Hf) in H7 as (p7 & n7 & P7 & E7 & A7 & B7 & L7 & N7); [|exact Hd]. apply (table_place f Hf) in H8 as (p8 & n8 & P8 & E8 & A8 & B8 & L8 & N8); [|exact Hd].
  destruct (cf_lengths _ _ _ C) as (C1 & C2 & C3 & C8). destruct (cf_os2 _ _ _ C) as (C7 & C7').
  unfold ttf_parse. unfold rstr, flen. replace (0 + 4 <=? len f) with true by lia. rewrite orb_true_r, Hv, beqb_refl. cbn [negb].
  assert (D : dir_loop f (Z.to_nat (r16 f 4)) 12 [] = Some (rev (map (fun j => (tag f j, toff f j)) (range 0 (Z.to_nat (num_tables f)))))).
  { unfold r16, flen. replace (4 + 2 <=? len f) with true by lia. pose proof (dir_ok f (Z.to_nat (u16 f 4)) 0 [] ltac:(lia) ltac:(lia)) as X. rewrite Z.mul_0_r, Z.add_0_r, app_nil_r in X. exact X. }
  rewrite D, P1, P2, P3, P4, P5, P6, P7, P8. clear D. rewrite (r32_in f p1 n1 12) by lia. rewrite <- E1, (cf_magic _ _ _ C). change (negb (1594834165 =? 1594834165)) with false. cbv iota.
  rewrite (r16_in f p2 n2 34), (r16_in f p3 n3 4) by lia. rewrite <- E2, <- E3. fold (metrics_count T). fold (glyphs T).
  destruct (widths_ok f p4 n4 T E4 A4 B4 L4 (cf_metrics _ _ _ C)) as (ws & W1 & W2 & W3); [rewrite <- N4; apply (cf_hmtx _ _ _ C)|]. rewrite W1. cbn [obind].
  pose proof (cf_segments _ _ _ C) as SS. pose proof (cf_map _ _ _ C) as SW. pose proof (cf_glyphs _ _ _ C) as SG. rewrite E5 in SS, SW, SG.
  destruct (chars_ok f Hf p5 n5 o A5 B5 L5 SS SW) as (cs & K1 & K2). rewrite K1.
  pose proof (cf_name _ _ _ C) as NM. rewrite E6 in NM. rewrite (name_ok f p6 n6 name Hf A6 B6 L6 NM).
  rewrite (r16_in f p7 n7 8), (r16_in f p1 n1 18), (r16_in f p7 n7 62), (ri16_in f p8 n8 4), (r32_in f p8 n8 12), (ri16_in f p7 n7 68), (ri16_in f p7 n7 70), (ri16_in f p8 n8 8), (ri16_in f p8 n8 10),
    (ri16_in f p1 n1 36), (ri16_in f p1 n1 38), (ri16_in f p1 n1 40), (ri16_in f p1 n1 42) by lia.
  pose proof (r16_in f p7 n7 0 ltac:(lia) ltac:(lia) ltac:(lia) L7) as V. rewrite Z.add_0_r in V. rewrite V. rewrite <- E1, <- E7, <- E8. eexists. split; [reflexivity|].
  constructor; cbn [tt_em tt_box tt_name tt_embed tt_bold tt_asc tt_desc tt_cap tt_angle tt_up tt_ut tt_fixed tt_widths tt_chars]; try reflexivity; try (split; reflexivity).
  - change 512 with (2 ^ 9). rewrite land_bit, andb_true_iff, !negb_true_iff, Z.eqb_neq by lia. reflexivity.
  - change 32 with (2 ^ 5). rewrite land_bit by lia. apply negb_involutive.
  - destruct (Z.leb_spec 2 (u16 (T_os2 T) 0)) as [X|X].
    + replace (u16 (T_os2 T) 0 <? 2) with false by lia. specialize (C7' X). rewrite (ri16_in f p7 n7 88) by lia. now rewrite <- E7.
    + now replace (u16 (T_os2 T) 0 <? 2) with true by lia.
  - rewrite negb_true_iff, Z.eqb_neq. reflexivity.
  - split; assumption.
  - intros c Hc. rewrite E5. specialize (SG c Hc). rewrite <- E5 in SG. rewrite E5 in SG. apply K2; [exact Hc|lia].
Qed.
Print Assumptions C74_values_partial.

(** ** A small font: A is glyph 2, B is glyph 1; four glyphs, two with long metrics *)
Definition fx_head : bytes := repeat 0 12 ++ [95; 15; 60; 245] ++ [0; 0] ++ [3; 232] ++ repeat 0 16 ++ [255; 156; 255; 56; 3; 132; 3; 32] ++ repeat 0 10.
Definition fx_hhea : bytes := repeat 0 34 ++ [0; 2].
Definition fx_maxp : bytes := [0; 1; 0; 0; 0; 4].
Definition fx_hmtx : bytes := [1; 244; 0; 10; 2; 88; 0; 20; 0; 30; 0; 40].
Definition fx_name : bytes := [0; 0; 0; 1; 0; 18] ++ [0; 3; 0; 1; 4; 9; 0; 6; 0; 6; 0; 0] ++ [0; 70; 0; 111; 0; 111].
Definition fx_os2 : bytes := [0; 2; 2; 38; 1; 144; 0; 5; 0; 8] ++ repeat 0 52 ++ [0; 32; 0; 0; 0; 0; 3; 32; 255; 56] ++ repeat 0 16 ++ [2; 188] ++ repeat 0 6.
Definition fx_post : bytes := [0; 3; 0; 0; 255; 244; 0; 0; 255; 156; 0; 50; 0; 0; 0; 1] ++ repeat 0 16.
Definition fx_font (head hhea maxp cmap : bytes) : bytes :=
  match assemble [(bs "head", head); (bs "hhea", hhea); (bs "maxp", maxp); (bs "hmtx", fx_hmtx); (bs "cmap", cmap); (bs "name", fx_name); (bs "OS/2", fx_os2); (bs "post", fx_post)] with Ret t => t | _ => [] end.
Definition fx_T (f : bytes) (hhea maxp cmap : bytes) : tables :=
  {| T_head := tdata f 2; T_hhea := hhea; T_maxp := maxp; T_hmtx := fx_hmtx; T_cmap := cmap; T_name := fx_name; T_os2 := fx_os2; T_post := fx_post |}.
Lemma byte_file f : forallb (fun x => (0 <=? x) && (x <? 256)) f = true -> Forall is_byte f.
Proof. intros H. apply Forall_forall. intros x Hx. rewrite forallb_forall in H. specialize (H x Hx). unfold is_byte. lia. Qed.
Lemma fx_name_ok : postscript_name fx_name (bs "Foo").
Proof.
  exists 0. change (u16 fx_name 2) with 1. split; [lia|]. split; [vm_compute; discriminate|]. split; [vm_compute; reflexivity|]. split; [lia|].
  cbn zeta. split; [vm_compute; discriminate|]. split; [vm_compute; reflexivity|discriminate].
Qed.

(** a font with 50000 glyphs: the character d (100) is glyph 40100, from the difference 40000 *)
Definition fx_far : bytes := [0; 0; 0; 1; 0; 3; 0; 1; 0; 0; 0; 12] ++ [0; 4; 0; 32; 0; 0; 0; 4; 0; 4; 0; 1; 0; 0] ++ [0; 100; 255; 255] ++ [0; 0] ++ [0; 100; 255; 255] ++ [156; 64; 0; 1] ++ [0; 0; 0; 0].
Definition far_hhea : bytes := repeat 0 34 ++ [0; 1].
Definition far_maxp : bytes := [0; 1; 0; 0; 195; 80].
Definition far_font : bytes := Eval vm_compute in fx_font fx_head far_hhea far_maxp fx_far.
Lemma far_segments : sound_segments fx_far 12.
Proof.
  constructor.
  - vm_compute. intuition discriminate.
  - vm_compute. reflexivity.
  - vm_compute. reflexivity.
  - vm_compute. intuition discriminate.
  - change (u16 fx_far (12 + 6) / 2) with 2. intros i Hi. assert (X : i = 0 \/ i = 1) by lia. destruct X as [->| ->]; vm_compute; discriminate.
  - change (u16 fx_far (12 + 6) / 2) with 2. intros i j Hi Hj. replace i with 0 by lia. replace j with 1 by lia. vm_compute. reflexivity.
  - change (u16 fx_far (12 + 6) / 2) with 2. intros i Hi. assert (X : i = 0 \/ i = 1) by lia. cbn zeta. destruct X as [->| ->]; left; vm_compute; reflexivity.
Qed.
Lemma far_lookup c : 0 <= c < 65535 -> lookup4 fx_far 12 c = if c =? 100 then 40100 else 0.
Proof.
  intros Hc. unfold lookup4. change (Z.to_nat (u16 fx_far (12 + 6) / 2)) with 2%nat. cbn [find_segment].
  change (u16 fx_far (12 + 14 + 2 * 0)) with 100. change (u16 fx_far (12 + 14 + 2 * (0 + 1))) with 65535.
  destruct (Z.leb_spec c 100) as [L|L].
  - change (u16 fx_far (12 + 16 + u16 fx_far (12 + 6) + 2 * 0)) with 100. destruct (Z.ltb_spec c 100) as [L2|L2].
    + destruct (Z.eqb_spec c 100); [lia|reflexivity].
    + replace c with 100 by lia. vm_compute. reflexivity.
  - replace (c <=? 65535) with true by lia. change (u16 fx_far (12 + 16 + u16 fx_far (12 + 6) + 2 * (0 + 1))) with 65535. replace (c <? 65535) with true by lia. destruct (Z.eqb_spec c 100); [lia|reflexivity].
Qed.
Lemma far_complete : complete_font (fx_T far_font far_hhea far_maxp fx_far) 12 (bs "Foo").
Proof.
  constructor; cbn [T_head T_hhea T_maxp T_hmtx T_cmap T_name T_os2 T_post fx_T].
  - vm_compute. reflexivity.
  - vm_compute. intuition discriminate.
  - vm_compute. intuition discriminate.
  - vm_compute. intuition discriminate.
  - vm_compute. discriminate.
  - split.
    + exists 0. vm_compute. intuition discriminate.
    + change (u16 fx_far 2) with 1. intros i Hi. replace i with 0 by lia. vm_compute. reflexivity.
  - exact far_segments.
  - intros c Hc. rewrite far_lookup by exact Hc. change (glyphs (fx_T far_font far_hhea far_maxp fx_far)) with 50000. destruct (c =? 100); lia.
  - exact fx_name_ok.
Qed.
(** the characters returned are those read from the table "cmap" *)
Lemma parse_chars f r dir cmap : ttf_parse f = Ret (Some r) -> dir_loop f (Z.to_nat (r16 f 4)) 12 [] = Some dir -> place dir (bs "cmap") = Some cmap -> chars_of f cmap = Some (tt_chars r).
Proof.
  unfold ttf_parse. intros H D P. rewrite D, P in H.
  repeat match type of H with
  | context [match rstr ?a ?b ?c with _ => _ end] => destruct (rstr a b c); [|discriminate]
  | context [if ?b then _ else _] => lazymatch b with context [negb (beqb _ _)] => idtac | context [negb (r32 _ _ =? _)] => idtac end; destruct b; [discriminate|]
  | context [match place dir ?n with _ => _ end] => destruct (place dir n); [|discriminate]
  end.
  destruct (widths_of _ _ _ _) as [ws| |] eqn:W; cbn [obind] in H; try discriminate. destruct (chars_of f cmap) as [cs|] eqn:E; [|discriminate].
  repeat match type of H with
  | context [match place dir ?n with _ => _ end] => destruct (place dir n); [|discriminate]
  | context [match name_of ?a ?b with _ => _ end] => destruct (name_of a b); [|discriminate]
  end.
  injection H as <-. reflexivity.
Qed.
Theorem C74_refuted : ~ C74_statement.
Proof.
  intros H. destruct (H far_font (fx_T far_font far_hhea far_maxp fx_far) 12 (bs "Foo")) as (r & P & D).
  - apply byte_file. vm_compute. reflexivity.
  - vm_compute. reflexivity.
  - vm_compute. discriminate.
  - repeat split; apply table_inb_ok; vm_compute; reflexivity.
  - exact far_complete.
  - pose proof (de_chars _ _ _ _ D 100 ltac:(lia)) as C. cbn [T_cmap fx_T] in C. rewrite far_lookup in C by lia. cbn in C.
    destruct (dir_loop far_font (Z.to_nat (r16 far_font 4)) 12 []) as [dir|] eqn:E1; [|vm_compute in E1; discriminate].
    assert (E2 : match dir_loop far_font (Z.to_nat (r16 far_font 4)) 12 [] with Some d => match place d (bs "cmap") with Some c => chars_of far_font c | None => None end | None => None end = Some []) by (vm_compute; reflexivity).
    rewrite E1 in E2. destruct (place dir (bs "cmap")) as [cm|] eqn:E3; [|discriminate]. pose proof (parse_chars _ _ _ _ P E1 E3) as X. rewrite E2 in X. injection X as X. rewrite <- X in C. discriminate.
Qed.
Print Assumptions C74_refuted.

(** the small font, and what is found in it *)
Definition fx_cmap : bytes := match cmap_table [(65, 2); (66, 1)] 4 with Ret t => t | _ => [] end.
Definition fx_ex : bytes := Eval vm_compute in fx_font fx_head fx_hhea fx_maxp fx_cmap.
Definition fx_ttf : ttf := {| tt_embed := true; tt_em := 1000; tt_name := bs "Foo"; tt_bold := true; tt_angle := -12; tt_fixed := true; tt_asc := 800; tt_desc := -200;
  tt_up := -100; tt_ut := 50; tt_box := (-100, -200, 900, 800); tt_cap := 700; tt_widths := [500; 600; 600; 600]; tt_chars := [(66, 1); (65, 2)] |}.
Example C74_case : ttf_parse fx_ex = Ret (Some fx_ttf).
Proof. vm_compute. reflexivity. Qed.
Example C74_case_ok : Forall is_byte fx_ex /\ extract fx_ex 0 4 = [0; 1; 0; 0] /\ 12 + 16 * num_tables fx_ex <= len fx_ex /\
  tables_in fx_ex (fx_T fx_ex fx_hhea fx_maxp fx_cmap) /\ complete_font (fx_T fx_ex fx_hhea fx_maxp fx_cmap) 12 (bs "Foo") /\ glyphs (fx_T fx_ex fx_hhea fx_maxp fx_cmap) <= 32768.
Proof.
  split; [apply byte_file; vm_compute; reflexivity|]. split; [vm_compute; reflexivity|]. split; [vm_compute; discriminate|].
  split; [repeat split; apply table_inb_ok; vm_compute; reflexivity|]. split; [|vm_compute; discriminate].
  constructor; cbn [T_head T_hhea T_maxp T_hmtx T_cmap T_name T_os2 T_post fx_T].
  - vm_compute. reflexivity.
  - vm_compute. intuition discriminate.
  - vm_compute. intuition discriminate.
  - vm_compute. intuition discriminate.
  - vm_compute. discriminate.
  - split.
    + exists 0. vm_compute. intuition discriminate.
    + change (u16 fx_cmap 2) with 1. intros i Hi. replace i with 0 by lia. vm_compute. reflexivity.
  - constructor.
    + vm_compute. intuition discriminate.
    + vm_compute. reflexivity.
    + vm_compute. reflexivity.
    + vm_compute. intuition discriminate.
    + change (u16 fx_cmap (12 + 6) / 2) with 3. intros i Hi. assert (X : i = 0 \/ i = 1 \/ i = 2) by lia. destruct X as [->|[->| ->]]; vm_compute; discriminate.
    + change (u16 fx_cmap (12 + 6) / 2) with 3. intros i j Hi Hj. assert (X : (i = 0 /\ j = 1) \/ (i = 0 /\ j = 2) \/ (i = 1 /\ j = 2)) by lia. destruct X as [[-> ->]|[[-> ->]|[-> ->]]]; vm_compute; reflexivity.
    + change (u16 fx_cmap (12 + 6) / 2) with 3. intros i Hi. assert (X : i = 0 \/ i = 1 \/ i = 2) by lia. cbn zeta. destruct X as [->|[->| ->]]; left; vm_compute; reflexivity.
  - intros c Hc. unfold lookup4. change (Z.to_nat (u16 fx_cmap (12 + 6) / 2)) with 3%nat. cbn [find_segment].
    change (u16 fx_cmap (12 + 14 + 2 * 0)) with 65. change (u16 fx_cmap (12 + 14 + 2 * (0 + 1))) with 66. change (u16 fx_cmap (12 + 14 + 2 * (0 + 1 + 1))) with 65535.
    change (glyphs (fx_T fx_ex fx_hhea fx_maxp fx_cmap)) with 4.
    destruct (Z.leb_spec c 65) as [L|L]; [|destruct (Z.leb_spec c 66) as [L2|L2]].
    + change (u16 fx_cmap (12 + 16 + u16 fx_cmap (12 + 6) + 2 * 0)) with 65. destruct (Z.ltb_spec c 65); [lia|]. replace c with 65 by lia. vm_compute. reflexivity.
    + replace c with 66 by lia. vm_compute. reflexivity.
    + replace (c <=? 65535) with true by lia. change (u16 fx_cmap (12 + 16 + u16 fx_cmap (12 + 6) + 2 * (0 + 1 + 1))) with 65535. replace (c <? 65535) with true by lia. lia.
  - exact fx_name_ok.
Qed.
(** a file cut off before its tables are complete is accepted, with zeros for what is missing *)
Theorem C74_truncated_refuted : ~ (forall f r, ttf_parse f = Ret (Some r) -> forall i, 0 <= i < num_tables f -> toff f i + tlen f i <= len f).
Proof.
  intros H. specialize (H (firstn (Z.to_nat (toff fx_ex 7 + 6)) fx_ex) _ ltac:(vm_compute; reflexivity) 7). assert (X : 0 <= 7 < num_tables (firstn (Z.to_nat (toff fx_ex 7 + 6)) fx_ex)) by (vm_compute; intuition discriminate).
  specialize (H X). vm_compute in H. now apply H.
Qed.
(** a font without long metrics stops the program *)
Theorem C74_crash_refuted : exists f, Forall is_byte f /\ 12 + 16 * num_tables f <= len f /\ (forall i, 0 <= i < num_tables f -> toff f i + tlen f i <= len f) /\ ttf_parse f = Panic.
Proof.
  exists (fx_font fx_head (repeat 0 36) fx_maxp fx_cmap). split; [apply byte_file; vm_compute; reflexivity|]. split; [vm_compute; discriminate|]. split; [|vm_compute; reflexivity].
  intros i Hi. change (num_tables (fx_font fx_head (repeat 0 36) fx_maxp fx_cmap)) with 8 in Hi.
  assert (H : forallb (fun i => toff (fx_font fx_head (repeat 0 36) fx_maxp fx_cmap) i + tlen (fx_font fx_head (repeat 0 36) fx_maxp fx_cmap) i <=? len (fx_font fx_head (repeat 0 36) fx_maxp fx_cmap)) (range 0 (Z.to_nat 8)) = true) by (vm_compute; reflexivity).
  pose proof (all_range _ _ H i Hi) as X. cbn beta in X. lia.
Qed.
