(** C69: the values of the font descriptor of a UTF-8 font. *)
From Verif Require Import Base DocModel DocProofs TtfSpec TtfModel TtfProofs TtfProps TtfCmap CutSpec CutModel CutProofs CutRead CutSymbols CutExample WidthModel WidthProofs WidthProps WidthExample.
From Coq Require Import String.
Open Scope Z_scope.
Notation length := List.length.
Notation concat := List.concat.

(** a signed number of two bytes *)
Definition s16 (s : bytes) (p : Z) : Z := if u16 s p <? 32768 then u16 s p else u16 s p - 65536.
Definition no_table (f : bytes) (name : string) : Prop := forall i, 0 <= i < num_tables f -> tag f i <> bs name.

(** the box, the angle rounded down, the underline, the flags and the width of unknown characters are those of the tables
    head, post and OS/2, in thousandths of the em *)
Definition same_metrics (M : fmath) (F : font) (post : bytes) (weight : Z) (m : metrics) : Prop :=
  let em := units_per_em F in
  m_bbox m = (fm_trunc M em (s16 (F_head F) 36), fm_trunc M em (s16 (F_head F) 38), fm_trunc M em (s16 (F_head F) 40), fm_trunc M em (s16 (F_head F) 42)) /\
  m_angle m = s16 post 4 /\ m_up m = fm_round' M em (s16 post 8) /\ m_ut m = fm_round' M em (s16 post 10) /\
  (forall i, 0 <= i -> Z.testbit (m_flags m) i = true <->
     i = 2 \/ (i = 0 /\ u32 post 12 <> 0) \/ (i = 6 /\ s16 post 4 <> 0) \/ (i = 18 /\ 600 <= weight)).
(** the height of the letters: of the table hhea, or if it has none of the table OS/2, or without it of the box *)
Definition same_heights (M : fmath) (F : font) (os2 : option bytes) (m : metrics) : Prop :=
  let em := units_per_em F in
  let pick (p q r : Z) := if fm_trunc M em (s16 (F_hhea F) p) =? 0 then match os2 with Some t => fm_trunc M em (s16 t q) | None => fm_trunc M em (s16 (F_head F) r) end
                          else fm_trunc M em (s16 (F_hhea F) p) in
  m_ascent m = pick 4 68 42 /\ m_descent m = pick 6 70 38 /\
  m_cap m = (match os2 with Some t => if 1 <? u16 t 0 then fm_trunc M em (s16 t 88) else m_ascent m | None => m_ascent m end) /\
  m_stem m = fm_stem M (match os2 with Some t => u16 t 4 | None => 500 end).
(** the font allows embedding *)
Definition unrestricted (t : bytes) : Prop := u16 t 8 <> 2 /\ Z.land (u16 t 8) 768 = 0.

Definition C69_statement : Prop := forall (M : fmath) (f : bytes) (F : font) (post : bytes) (os2 : option bytes) (m : metrics),
  parse_font M f = Ret (Some m) -> Forall is_byte f -> font_in f F -> table_in f "post" post -> sound_glyphs F -> 44 <= len (F_head F) -> 16 <= len post ->
  match os2 with Some t => table_in f "OS/2" t /\ 90 <= len t /\ unrestricted t | None => no_table f "OS/2" end ->
  same_metrics M F post (match os2 with Some t => u16 t 4 | None => 500 end) m /\ same_heights M F os2 m.

Lemma flags_bits (a b c : bool) : forall i, 0 <= i -> let f0 := 4 in let f1 := if a then Z.lor f0 64 else f0 in let f2 := if b then Z.lor f1 262144 else f1 in let f3 := if c then Z.lor f2 1 else f2 in
  Z.testbit f3 i = true <-> i = 2 \/ (i = 0 /\ c = true) \/ (i = 6 /\ a = true) \/ (i = 18 /\ b = true).
Proof.
  intros i Hi. cbv zeta. assert (B : forall n k, 0 <= k -> Z.testbit (2 ^ k) n = (n =? k)) by (intros n k Hk; rewrite Z.pow2_bits_eqb by lia; apply Z.eqb_sym).
  change 4 with (2 ^ 2). change 64 with (2 ^ 6). change 262144 with (2 ^ 18). change 1 with (2 ^ 0) at 1.
  destruct a, b, c; rewrite ?Z.lor_spec; rewrite ?B by lia; rewrite ?orb_true_iff, ?Z.eqb_eq; intuition (try discriminate; try lia).
Qed.
Lemma rdi16_s16 f p v : Forall is_byte f -> rdi16 f p = Ret v -> v = s16 f p.
Proof. intros Hf H. apply rdi16_ret in H as (_ & _ & ->); [reflexivity|exact Hf]. Qed.
Lemma s16_extract f p n q : 0 <= p -> 0 <= q -> q + 2 <= n -> s16 (extract f p n) q = s16 f (p + q).
Proof. intros. unfold s16. now rewrite u16_extract by lia. Qed.
Lemma find_desc_none f dir name : Forall is_byte f -> read_dir f = Ret dir -> no_table f name -> find_desc dir (bs name) = None.
Proof.
  intros Hf Hd N. destruct (find_desc dir (bs name)) as [d|] eqn:E; [|reflexivity]. apply (find_desc_some f dir name d Hf Hd) in E as (i & Hi & Ti & _). exfalso. exact (N i Hi Ti).
Qed.

(** Proved when the table OS/2 is there or the table hhea has both heights. *)
Theorem C69_descriptor_partial : forall (M : fmath) (f : bytes) (F : font) (post : bytes) (os2 : option bytes) (m : metrics),
  parse_font M f = Ret (Some m) -> Forall is_byte f -> font_in f F -> table_in f "post" post -> sound_glyphs F -> 44 <= len (F_head F) -> 16 <= len post ->
  match os2 with Some t => table_in f "OS/2" t /\ 90 <= len t /\ unrestricted t | None => no_table f "OS/2" end ->
  let em := units_per_em F in
  os2 <> None \/ (fm_trunc M em (s16 (F_hhea F) 4) <> 0 /\ fm_trunc M em (s16 (F_hhea F) 6) <> 0) ->
  same_metrics M F post (match os2 with Some t => u16 t 4 | None => 500 end) m /\ same_heights M F os2 m.
Proof.
  intros M f F post os2 m H Hf (Thead & Tmaxp & Thhea & Thmtx & Tloca & Tglyf) Tpost SG Lh Lp TO em Or. unfold parse_font in H. obr H. destruct (negb _); [discriminate|]. apply obind_ret in H as (dir & Hdir & H). apply obind_ret in H as (m' & Hm & H).
  assert (X : m' = m) by congruence. subst m'. clear H E v. rename Hm into H.
  destruct (find_desc_in f dir _ _ Hf Hdir Thead) as (dh & Dh & Ph & Dh0 & Dh1 & Dh2 & Eh).
  destruct (find_desc_in f dir _ _ Hf Hdir Thhea) as (de & De & Pe & De0 & De1 & De2 & Ee).
  destruct (find_desc_in f dir _ _ Hf Hdir Tpost) as (dp & Dp & Pp & Dp0 & Dp1 & Dp2 & Ep).
  pose proof (sg_tables F SG) as (S1 & S2 & S3). assert (L1 := S1). rewrite Eh in L1. assert (L2 := S2). rewrite Ee in L2. assert (L3 := Lp). rewrite Ep in L3. rewrite extract_len in L1, L2, L3 by lia.
  unfold parse_tables in H. apply obind_ret in H as (nm & En & H). apply obind_ret in H as ([em' [[[xmin ymin] xmax] ymax]] & Hh & H).
  assert (HEAD : em' = em /\ xmin = fm_trunc M em (s16 (F_head F) 36) /\ ymin = fm_trunc M em (s16 (F_head F) 38) /\ xmax = fm_trunc M em (s16 (F_head F) 40) /\ ymax = fm_trunc M em (s16 (F_head F) 42)).
  { unfold parse_head in Hh. rewrite (seek_some _ _ _ Dh) in Hh. cbn [obind] in Hh. apply obind_ret in Hh as (e0 & Ee0 & Hh). apply rd16_ret in Ee0 as (_ & _ & ->).
    apply obind_ret in Hh as (x1 & X1 & Hh). apply obind_ret in Hh as (x2 & X2 & Hh). apply obind_ret in Hh as (x3 & X3 & Hh). apply obind_ret in Hh as (x4 & X4 & Hh). obr Hh. obr Hh.
    apply (rdi16_s16 _ _ _ Hf) in X1, X2, X3, X4. rewrite Eh, !s16_extract by lia. unfold em, units_per_em. rewrite Eh, u16_extract by lia. rewrite <- X1, <- X2, <- X3, <- X4. repeat split; congruence. }
  destruct HEAD as (-> & -> & -> & -> & ->). clear Hh.
  apply obind_ret in H as ([[count asc] dsc] & Hhh & H).
  assert (HHEA : asc = fm_trunc M em (s16 (F_hhea F) 4) /\ dsc = fm_trunc M em (s16 (F_hhea F) 6)).
  { unfold parse_hhea in Hhh. rewrite De in Hhh. apply obind_ret in Hhh as (h1 & H1 & Hhh). apply obind_ret in Hhh as (h2 & H2 & Hhh). apply obind_ret in Hhh as (h3 & _ & Hhh).
    apply (rdi16_s16 _ _ _ Hf) in H1, H2. rewrite Ee, !s16_extract by lia. rewrite <- H1, <- H2. destruct (negb (h3 =? 0)); [split; congruence|]. apply obind_ret in Hhh as (h4 & _ & Hhh). split; congruence. }
  destruct HHEA as (-> & ->). clear Hhh.
  apply obind_ret in H as (os & Hos & H). apply obind_ret in H as ([[[angle up] ut] flags] & Hpost & H). apply obind_ret in H as (cmp & _ & H).
  apply obind_ret in H as (mx & _ & H). apply obind_ret in H as (num & _ & H). apply obind_ret in H as (pairs & _ & H). apply obind_ret in H as ([dw cw] & _ & H).
  assert (W : o_weight os = match os2 with Some t => u16 t 4 | None => 500 end /\ o_ascent os = (if fm_trunc M em (s16 (F_hhea F) 4) =? 0 then match os2 with Some t => fm_trunc M em (s16 t 68) | None => fm_trunc M em (fm_trunc M em (s16 (F_head F) 42)) end else fm_trunc M em (s16 (F_hhea F) 4)) /\
    o_descent os = (if fm_trunc M em (s16 (F_hhea F) 6) =? 0 then match os2 with Some t => fm_trunc M em (s16 t 70) | None => fm_trunc M em (fm_trunc M em (s16 (F_head F) 38)) end else fm_trunc M em (s16 (F_hhea F) 6)) /\
    o_cap os = (match os2 with Some t => if 1 <? u16 t 0 then fm_trunc M em (s16 t 88) else o_ascent os | None => o_ascent os end) /\ o_stem os = fm_stem M (match os2 with Some t => u16 t 4 | None => 500 end)).
  { unfold parse_os2 in Hos. destruct os2 as [t|].
    - destruct TO as (TO & Lt & U1 & U2). destruct (find_desc_in f dir _ _ Hf Hdir TO) as (d0 & D0 & P0 & D00 & D01 & D02 & E0). rewrite D0 in Hos. assert (L0 := Lt). rewrite E0 in L0. rewrite extract_len in L0 by lia.
      apply obind_ret in Hos as (ver & V1 & Hos). apply obind_ret in Hos as (wt & V2 & Hos). apply obind_ret in Hos as (fst_ & V3 & Hos). apply rd16_ret in V1 as (_ & _ & V1), V2 as (_ & _ & V2), V3 as (_ & _ & V3).
      replace (u16 f (t_pos d0)) with (u16 t 0) in V1 by (rewrite E0, u16_extract by lia; f_equal; lia). replace (u16 f (t_pos d0 + 4)) with (u16 t 4) in V2 by (rewrite E0, u16_extract by lia; reflexivity).
      replace (u16 f (t_pos d0 + 8)) with (u16 t 8) in V3 by (rewrite E0, u16_extract by lia; reflexivity). subst ver wt fst_.
      replace ((u16 t 8 =? 2) || negb (Z.land (u16 t 8) 768 =? 0)) with false in Hos by (rewrite U2; change (negb (0 =? 0)) with false; lia).
      apply obind_ret in Hos as (x1 & _ & Hos). apply obind_ret in Hos as (x2 & V4 & Hos). apply obind_ret in Hos as (x3 & V5 & Hos). apply (rdi16_s16 _ _ _ Hf) in V4, V5.
      replace (s16 f (t_pos d0 + 68)) with (s16 t 68) in V4 by (rewrite E0, s16_extract by lia; reflexivity). replace (s16 f (t_pos d0 + 70)) with (s16 t 70) in V5 by (rewrite E0, s16_extract by lia; reflexivity). subst x2 x3.
      apply obind_ret in Hos as (cap & V6 & Hos). set (asc := if fm_trunc M em (s16 (F_hhea F) 4) =? 0 then fm_trunc M em (s16 t 68) else fm_trunc M em (s16 (F_hhea F) 4)) in *.
      assert (C : cap = if 1 <? u16 t 0 then fm_trunc M em (s16 t 88) else asc).
      { destruct (1 <? u16 t 0); [|congruence]. apply obind_ret in V6 as (x6 & V7 & V6). apply (rdi16_s16 _ _ _ Hf) in V7. replace (s16 f (t_pos d0 + 88)) with (s16 t 88) in V7 by (rewrite E0, s16_extract by lia; reflexivity). congruence. }
      assert (Y : exists o', os = o' /\ o_weight o' = u16 t 4 /\ o_ascent o' = asc /\ o_descent o' = (if fm_trunc M em (s16 (F_hhea F) 6) =? 0 then fm_trunc M em (s16 t 70) else fm_trunc M em (s16 (F_hhea F) 6)) /\ o_cap o' = cap /\ o_stem o' = fm_stem M (u16 t 4)) by (eexists; split; [symmetry; injection Hos as Hos; exact Hos|]; repeat split; reflexivity).
      destruct Y as (o' & -> & Y1 & Y2 & Y3 & Y4 & Y5). rewrite Y1, Y2, Y3, Y4, Y5. auto.
    - rewrite (find_desc_none f dir _ Hf Hdir TO) in Hos.
      assert (Y : exists o', os = o' /\ o_weight o' = 500 /\ o_ascent o' = (if fm_trunc M em (s16 (F_hhea F) 4) =? 0 then fm_trunc M em (fm_trunc M em (s16 (F_head F) 42)) else fm_trunc M em (s16 (F_hhea F) 4)) /\
        o_descent o' = (if fm_trunc M em (s16 (F_hhea F) 6) =? 0 then fm_trunc M em (fm_trunc M em (s16 (F_head F) 38)) else fm_trunc M em (s16 (F_hhea F) 6)) /\ o_cap o' = o_ascent o' /\ o_stem o' = fm_stem M 500)
        by (eexists; split; [symmetry; injection Hos as Hos; exact Hos|]; repeat split; reflexivity).
      destruct Y as (o' & -> & Y1 & Y2 & Y3 & Y4 & Y5). auto. }
  assert (PO : angle = s16 post 4 /\ up = s16 post 8 /\ ut = s16 post 10 /\ forall i, 0 <= i -> Z.testbit flags i = true <-> i = 2 \/ (i = 0 /\ u32 post 12 <> 0) \/ (i = 6 /\ s16 post 4 <> 0) \/ (i = 18 /\ 600 <= o_weight os)).
  { unfold parse_post in Hpost. rewrite (seek_some _ _ _ Dp) in Hpost. cbn [obind] in Hpost.
    apply obind_ret in Hpost as (p1 & Q1 & Hpost). apply obind_ret in Hpost as (p2 & Q2 & Hpost). apply obind_ret in Hpost as (p3 & Q3 & Hpost). apply obind_ret in Hpost as (p4 & Q4 & Hpost). apply obind_ret in Hpost as (p5 & Q5 & Hpost).
    apply (rdi16_s16 _ _ _ Hf) in Q1, Q3, Q4. apply rd16_ret in Q2 as (_ & _ & Q2). apply rd32_ret in Q5 as (_ & _ & Q5). pose proof (u16_range f (t_pos dp + 6) Hf) as UR.
    replace (p2 / 65536) with 0 in Hpost by (symmetry; apply Z.div_small; lia). rewrite Z.add_0_r in Hpost.
    assert (Z1 : p1 = s16 post 4) by (rewrite Ep, s16_extract by lia; exact Q1). assert (Z3 : p3 = s16 post 8) by (rewrite Ep, s16_extract by lia; exact Q3). assert (Z4 : p4 = s16 post 10) by (rewrite Ep, s16_extract by lia; exact Q4).
    assert (Z5 : p5 = u32 post 12) by (rewrite Ep, u32_extract by lia; exact Q5). rewrite <- Z1, <- Z3, <- Z4, <- Z5. split; [congruence|]. split; [congruence|]. split; [congruence|]. intros i Hi.
    pose proof (flags_bits (negb (p1 =? 0)) (600 <=? o_weight os) (negb (p5 =? 0)) i Hi) as FB. cbv zeta in FB. assert (FE : flags = (let f0 := 4 in let f1 := if negb (p1 =? 0) then Z.lor f0 64 else f0 in let f2 := if 600 <=? o_weight os then Z.lor f1 262144 else f1 in if negb (p5 =? 0) then Z.lor f2 1 else f2)) by (cbv zeta; congruence).
    rewrite FE. cbv zeta. rewrite FB. rewrite !negb_true_iff, !Z.eqb_neq, Z.leb_le. reflexivity. }
  destruct PO as (-> & -> & -> & PF). destruct W as (W1 & W2 & W3 & W4 & W5). rewrite W1 in PF.
  assert (Y : exists m', m = m' /\ m_bbox m' = (fm_trunc M em (s16 (F_head F) 36), fm_trunc M em (s16 (F_head F) 38), fm_trunc M em (s16 (F_head F) 40), fm_trunc M em (s16 (F_head F) 42)) /\ m_ascent m' = o_ascent os /\ m_descent m' = o_descent os /\
    m_cap m' = o_cap os /\ m_stem m' = o_stem os /\ m_angle m' = s16 post 4 /\ m_flags m' = flags /\ m_up m' = fm_round' M em (s16 post 8) /\ m_ut m' = fm_round' M em (s16 post 10))
    by (eexists; split; [symmetry; injection H as H; exact H|]; repeat split; reflexivity).
  destruct Y as (m' & -> & Y1 & Y2 & Y3 & Y4 & Y5 & Y6 & Y7 & Y8 & Y9). split.
  - unfold same_metrics. cbv zeta. fold em. rewrite Y7. auto.
  - unfold same_heights. cbv zeta. fold em. rewrite Y2, Y3, Y4, Y5. split; [|split; [|split; [exact W4|exact W5]]].
    + rewrite W2. destruct os2; [reflexivity|]. destruct Or as [Or|[Or _]]; [congruence|]. replace (fm_trunc M em (s16 (F_hhea F) 4) =? 0) with false by lia. reflexivity.
    + rewrite W3. destruct os2; [reflexivity|]. destruct Or as [Or|[_ Or]]; [congruence|]. replace (fm_trunc M em (s16 (F_hhea F) 6) =? 0) with false by lia. reflexivity.
Qed.
Print Assumptions C69_descriptor_partial.

(** 2048 units per em, a box from -500 to 1500 and no other heights: the ascent is 357 instead of 732 *)
Definition h_font : bytes :=
  match assemble [(bs "head", repeat 0 18 ++ [8; 0] ++ repeat 0 18 ++ [254; 12; 0; 0; 5; 220] ++ repeat 0 10); (bs "hhea", ex_hhea); (bs "maxp", ex_maxp); (bs "hmtx", good); (bs "loca", ex_loca); (bs "glyf", ex_glyf);
                  (bs "cmap", ex_cmap); (bs "post", repeat 0 32); (bs "name", [0; 0; 0; 0; 0; 6])] with Ret t => t | _ => [] end.
Definition h_F : font := {| F_head := tdata h_font 2; F_maxp := ex_maxp; F_hhea := ex_hhea; F_hmtx := good; F_loca := ex_loca; F_glyf := ex_glyf |}.
Theorem C69_refuted : ~ C69_statement.
Proof.
  intros Hst. destruct (parse_font ex_M h_font) as [[m|]| |] eqn:E.
  2-4: apply (f_equal (fun x => match x with Ret (Some _) => true | _ => false end)) in E; vm_compute in E; discriminate.
  assert (A : m_ascent m = 357).
  { assert (W : match parse_font ex_M h_font with Ret (Some m) => m_ascent m | _ => 0 end = 357) by (vm_compute; reflexivity). rewrite E in W. exact W. }
  assert (NB : Forall is_byte h_font) by byte_tac. assert (FI : font_in h_font h_F) by (repeat split; apply table_inb_ok; vm_compute; reflexivity).
  assert (TP : table_in h_font "post" (repeat 0 32)) by (apply table_inb_ok; vm_compute; reflexivity). assert (SO : sound_glyphs h_F) by sound_tac.
  assert (NT : no_table h_font "OS/2").
  { intros i Hi. assert (X : forallb (fun i => negb (beqb (tag h_font i) (bs "OS/2"))) (range 0 (Z.to_nat (num_tables h_font))) = true) by (vm_compute; reflexivity).
    pose proof (all_range _ _ X i Hi) as Y. cbn beta in Y. intros T. rewrite T, beqb_refl in Y. discriminate Y. }
  destruct (Hst ex_M h_font h_F (repeat 0 32) None m E NB FI TP SO) as (_ & S); [vm_compute; discriminate|vm_compute; discriminate|exact NT|].
  unfold same_heights in S. cbv zeta in S. destruct S as (S & _). rewrite A in S. vm_compute in S. discriminate S.
Qed.
Print Assumptions C69_refuted.
(** a font with heights: 1000 units per em, ascent 800, descent -200, at an angle of -12.5 degrees, fixed pitch *)
Definition n_hhea : bytes := [0; 1; 0; 0; 3; 32; 255; 56] ++ repeat 0 26 ++ [0; 2].
Definition n_post : bytes := [0; 3; 0; 0; 255; 243; 128; 0; 255; 156; 0; 50; 0; 0; 0; 1] ++ repeat 0 16.
Definition n_font : bytes :=
  match assemble [(bs "head", repeat 0 18 ++ [3; 232] ++ repeat 0 34); (bs "hhea", n_hhea); (bs "maxp", ex_maxp); (bs "hmtx", good); (bs "loca", ex_loca); (bs "glyf", ex_glyf);
                  (bs "cmap", ex_cmap); (bs "post", n_post); (bs "name", [0; 0; 0; 0; 0; 6])] with Ret t => t | _ => [] end.
Definition n_F : font := {| F_head := tdata n_font 2; F_maxp := ex_maxp; F_hhea := n_hhea; F_hmtx := good; F_loca := ex_loca; F_glyf := ex_glyf |}.
Example C69_case : Forall is_byte n_font /\ font_in n_font n_F /\ table_in n_font "post" n_post /\ sound_glyphs n_F /\ no_table n_font "OS/2" /\
  fm_trunc ex_M (units_per_em n_F) (s16 (F_hhea n_F) 4) = 800 /\ fm_trunc ex_M (units_per_em n_F) (s16 (F_hhea n_F) 6) = -200 /\
  match parse_font ex_M n_font with Ret (Some m) => (m_ascent m, m_descent m, m_angle m, m_flags m, m_up m, m_ut m) = (800, -200, -13, 69, -100, 50) | _ => False end.
Proof.
  split; [byte_tac|]. split; [repeat split; apply table_inb_ok; vm_compute; reflexivity|]. split; [apply table_inb_ok; vm_compute; reflexivity|]. split; [sound_tac|]. split.
  { intros i Hi. assert (X : forallb (fun i => negb (beqb (tag n_font i) (bs "OS/2"))) (range 0 (Z.to_nat (num_tables n_font))) = true) by (vm_compute; reflexivity).
    pose proof (all_range _ _ X i Hi) as Y. cbn beta in Y. intros T. rewrite T, beqb_refl in Y. discriminate Y. }
  split; [vm_compute; reflexivity|]. split; vm_compute; reflexivity.
Qed.
