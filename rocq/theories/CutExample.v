(** A small font, and C65: the left side bearings of the subset font, and the caller's font data. *)
From Verif Require Import Base DocModel DocSort TtfSpec TtfModel TtfProofs TtfProps TtfCmap CutSpec CutModel CutProofs CutClosure CutRead CutGlyphs CutSymbols CutCmap CutOut CutMain CutProps.
From Coq Require Import String Permutation.
Open Scope Z_scope.
Notation length := List.length.
Notation concat := List.concat.

(** glyph 2 is drawn with glyph 1; only glyphs 0 and 1 have long metrics; A is glyph 2, B is glyph 1 *)
Definition ex_head : bytes := repeat 0 54.
Definition ex_hhea : bytes := repeat 0 34 ++ [0; 2].
Definition ex_maxp : bytes := [0; 1; 0; 0; 0; 4].
Definition ex_hmtx : bytes := [1; 244; 0; 10; 2; 88; 0; 20; 0; 30; 0; 40].
Definition ex_loca : bytes := [0; 0; 0; 6; 0; 12; 0; 20; 0; 20].
Definition ex_glyf : bytes := [0; 1; 0; 0; 0; 0; 0; 9; 0; 9; 1; 1] ++ [0; 1; 0; 0; 0; 0; 0; 8; 0; 7; 2; 3] ++ [255; 255; 0; 0; 0; 0; 0; 5; 0; 6; 0; 0; 0; 1; 4; 5].
Definition ex_cmap : bytes := match cmap_table [(65, 2); (66, 1)] 4 with Ret t => t | _ => [] end.
Definition ex_font : bytes :=
  match assemble [(bs "head", ex_head); (bs "hhea", ex_hhea); (bs "maxp", ex_maxp); (bs "hmtx", ex_hmtx); (bs "loca", ex_loca); (bs "glyf", ex_glyf);
                  (bs "cmap", ex_cmap); (bs "post", repeat 0 32); (bs "cvt ", [0; 7; 0; 8])] with Ret t => t | _ => [] end.
Definition ex_F : font :=
  {| F_head := extract ex_font (toff ex_font 3) 54; F_maxp := ex_maxp; F_hhea := ex_hhea; F_hmtx := ex_hmtx; F_loca := ex_loca; F_glyf := ex_glyf |}.

(** checks by computing *)
Lemma all_range n (P : Z -> bool) : forallb P (range 0 (Z.to_nat n)) = true -> forall i, 0 <= i < n -> P i = true.
Proof. intros H i Hi. rewrite forallb_forall in H. apply H. apply in_range. lia. Qed.
Definition table_inb (file : bytes) (name : string) (data : bytes) : bool :=
  match filter (fun i => beqb (tag file i) (bs name)) (range 0 (Z.to_nat (num_tables file))) with
  | [i] => beqb (tdata file i) data && (toff file i + tlen file i <=? len file)
  | _ => false
  end.
Lemma table_inb_ok file name data : table_inb file name data = true -> table_in file name data.
Proof.
  unfold table_inb. set (l := filter _ _). intros H. assert (IN : forall i, In i l <-> 0 <= i < num_tables file /\ tag file i = bs name).
  { intros i. unfold l. rewrite filter_In, in_range, beqb_eq. intuition lia. }
  destruct l as [|i [|j l]]; try discriminate. apply andb_prop in H as [H1 H2]. apply beqb_eq in H1. destruct (proj1 (IN i) (or_introl eq_refl)) as [R T].
  exists i. split; [exact R|]. split; [exact T|]. split; [exact H1|]. split; [lia|]. intros j Hj Tj. destruct (proj2 (IN j) (conj Hj Tj)) as [X|[]]. now symmetry.
Qed.
Lemma separate_ok file : forallb (fun i => forallb (fun j => (i =? j) || (toff file i + tlen file i <=? toff file j) || (toff file j + tlen file j <=? toff file i)) (range 0 (Z.to_nat (num_tables file)))) (range 0 (Z.to_nat (num_tables file))) = true ->
  separate_tables file.
Proof.
  intros H i j Hi Hj N. pose proof (all_range _ _ H i Hi) as H1. cbn beta in H1. pose proof (all_range _ _ H1 j Hj) as H2. cbn beta in H2. lia.
Qed.
Lemma ex_bytes : Forall is_byte ex_font.
Proof. apply Forall_forall. intros x Hx. assert (H : forallb (fun x => (0 <=? x) && (x <? 256)) ex_font = true) by (vm_compute; reflexivity). rewrite forallb_forall in H. specialize (H x Hx). unfold is_byte. lia. Qed.
Lemma ex_font_in : font_in ex_font ex_F.
Proof. repeat split; apply table_inb_ok; vm_compute; reflexivity. Qed.
Lemma ex_cmap_in : table_in ex_font "cmap" ex_cmap.
Proof. apply table_inb_ok. vm_compute. reflexivity. Qed.
Lemma ex_separate : separate_tables ex_font.
Proof. apply separate_ok. vm_compute. reflexivity. Qed.
Lemma ex_sound : sound_glyphs ex_F.
Proof.
  constructor.
  - left. vm_compute. reflexivity.
  - vm_compute. discriminate.
  - vm_compute. intuition discriminate.
  - vm_compute. discriminate.
  - change (glyph_count ex_F) with 4. intros g Hg. assert (H : forallb (fun g => (loca_at ex_F g <=? loca_at ex_F (g + 1)) && (loca_at ex_F (g + 1) <=? len (F_glyf ex_F))) (range 0 (Z.to_nat 4)) = true) by (vm_compute; reflexivity).
    pose proof (all_range _ _ H g Hg) as X. cbn beta in X. lia.
  - change (glyph_count ex_F) with 4. intros g Hg. assert (H : forallb (fun g => (loca_at ex_F (g + 1) - loca_at ex_F g =? 0) || (10 <=? loca_at ex_F (g + 1) - loca_at ex_F g)) (range 0 (Z.to_nat 4)) = true) by (vm_compute; reflexivity).
    pose proof (all_range _ _ H g Hg) as X. cbn beta in X. lia.
  - vm_compute. intuition discriminate.
  - vm_compute. discriminate.
Qed.
Lemma ex_map : sound_map ex_cmap 12.
Proof.
  constructor.
  - vm_compute. discriminate.
  - change (u16 ex_cmap 2) with 1. intros i Hi. replace i with 0 by lia. vm_compute. discriminate.
  - vm_compute. reflexivity.
  - vm_compute. reflexivity.
  - vm_compute. intuition discriminate.
  - change (u16 ex_cmap (12 + 6) / 2) with 3. intros i Hi. assert (X : i = 0 \/ i = 1 \/ i = 2) by lia. destruct X as [->|[->| ->]]; vm_compute; discriminate.
  - change (u16 ex_cmap (12 + 6) / 2) with 3. intros i j Hi Hj. assert (X : (i = 0 /\ j = 1) \/ (i = 0 /\ j = 2) \/ (i = 1 /\ j = 2)) by lia. destruct X as [[-> ->]|[[-> ->]|[-> ->]]]; vm_compute; reflexivity.
  - change (u16 ex_cmap (12 + 6) / 2) with 3. intros i Hi. assert (X : i = 0 \/ i = 1 \/ i = 2) by lia. cbn zeta. destruct X as [->|[->| ->]]; left; vm_compute; reflexivity.
Qed.
(** the hypotheses of C64 hold, and A becomes glyph 1 of three *)
Example C64_case : exists c, cut_font 5 ex_font [65] = Ret (Some c) /\ len (c_font c) < 2 ^ 32 /\ c_runes c = [(65, 1)] /\
  map (fun i => (glyph {| F_head := tdata (c_font c) 3; F_maxp := []; F_hhea := []; F_hmtx := []; F_loca := tdata (c_font c) 6; F_glyf := tdata (c_font c) 2 |} i)) [0; 1; 2] =
    [[0; 1; 0; 0; 0; 0; 0; 9; 0; 9; 1; 1]; [255; 255; 0; 0; 0; 0; 0; 5; 0; 6; 0; 0; 0; 2; 4; 5]; [0; 1; 0; 0; 0; 0; 0; 8; 0; 7; 2; 3]].
Proof. eexists. split; [vm_compute; reflexivity|]. vm_compute. auto. Qed.

(** ** C65 *)
(** the font data passed in are left alone *)
Definition C65_statement : Prop := forall fuel (f : bytes) (used : list Z) (c : cut) (F : font) (cm : bytes) (o : Z),
  cut_font fuel f used = Ret (Some c) -> Forall is_byte f -> font_in f F -> table_in f "cmap" cm ->
  sound_glyphs F -> sound_map cm o -> separate_tables f -> len used < 32767 -> len (c_font c) < 2 ^ 32 -> c_file c = f.

Definition ex_cut : cut := match cut_font 5 ex_font [65] with Ret (Some c) => c | _ => {| c_font := []; c_runes := []; c_last := 0; c_file := [] |} end.
Theorem C65_refuted : ~ C65_statement.
Proof.
  intros H. specialize (H 5%nat ex_font [65] ex_cut ex_F ex_cmap 12). assert (H1 : c_file ex_cut = ex_font); [apply H|]; try exact ex_bytes; try exact ex_font_in; try exact ex_cmap_in; try exact ex_sound; try exact ex_map; try exact ex_separate.
  - vm_compute. reflexivity.
  - cbn. lia.
  - vm_compute. reflexivity.
  - apply (f_equal (fun l => beqb l ex_font)) in H1. vm_compute in H1. discriminate.
Qed.
Print Assumptions C65_refuted.
(** A is made of glyph 1; in the subset made for A glyph 1 has the bearing of A's own glyph *)
Theorem C65_bearings_refuted : exists (f : bytes) (c : cut) (F G : font) (cm : bytes) (o : Z),
  cut_font 5 f [65] = Ret (Some c) /\ Forall is_byte f /\ font_in f F /\ table_in f "cmap" cm /\ sound_glyphs F /\ sound_map cm o /\ separate_tables f /\ len (c_font c) < 2 ^ 32 /\
  font_in (c_font c) G /\ uses F (char_glyph cm o 65) 1 /\ bearing F 1 = 20 /\ map (bearing G) [0; 1; 2] = [10; 30; 30].
Proof.
  exists ex_font, ex_cut, ex_F, {| F_head := tdata (c_font ex_cut) 3; F_maxp := tdata (c_font ex_cut) 7; F_hhea := tdata (c_font ex_cut) 4; F_hmtx := tdata (c_font ex_cut) 5; F_loca := tdata (c_font ex_cut) 6; F_glyf := tdata (c_font ex_cut) 2 |}, ex_cmap, 12.
  split; [vm_compute; reflexivity|]. split; [exact ex_bytes|]. split; [exact ex_font_in|]. split; [exact ex_cmap_in|]. split; [exact ex_sound|]. split; [exact ex_map|]. split; [exact ex_separate|].
  split; [vm_compute; reflexivity|]. split; [repeat split; apply table_inb_ok; vm_compute; reflexivity|]. split; [|split; vm_compute; reflexivity].
  split; [vm_compute; reflexivity|]. exists [12], 12. split; [apply comp_last; [vm_compute; discriminate|vm_compute; reflexivity]|]. split; [now left|vm_compute; reflexivity].
Qed.
(** The bearing is right for every glyph other than the last one with a long metric, and for that one too when all glyphs
    needed have long metrics; then the font data are left alone, and otherwise two bytes of the table hmtx change. *)
Theorem C65_bearings_partial : forall fuel (f : bytes) (used : list Z) (c : cut) (F : font) (cm : bytes) (o : Z),
  cut_font fuel f used = Ret (Some c) -> Forall is_byte f -> font_in f F -> table_in f "cmap" cm ->
  sound_glyphs F -> sound_map cm o -> separate_tables f -> len used < 32767 -> len (c_font c) < 2 ^ 32 ->
  exists (keys : list Z) (G : font), font_in (c_font c) G /\ glyph_count G = len keys /\
    (forall g, In g keys <-> needed F (0 :: map (char_glyph cm o) used) g) /\
    (forall i g, nth_error keys i = Some g -> g <> long_metrics F - 1 \/ (forall h, needed F (0 :: map (char_glyph cm o) used) h -> h < long_metrics F) -> bearing G (Z.of_nat i) = bearing F g) /\
    ((forall h, needed F (0 :: map (char_glyph cm o) used) h -> h < long_metrics F) -> c_file c = f) /\
    (exists i, 0 <= i < num_tables f /\ tag f i = bs "hmtx" /\ let p := toff f i + 4 * (long_metrics F - 1) + 2 in changed_only p (p + 1) f (c_file c)).
Proof.
  intros fuel f used c F cm o H Hf HF Hc SG SM Sep Lu Lf. destruct (cut_font_ret fuel f used c F cm o H Hf HF Hc SG SM Sep Lu Lf) as (keys & set & dms & G & cm' & R).
  exists keys, G. split; [apply R|]. split; [apply R|]. split; [apply R|].
  assert (K : (forall h, needed F (0 :: map (char_glyph cm o) used) h -> h < long_metrics F) -> forall g, In g keys -> g < long_metrics F).
  { intros A g Hg. apply A. now apply (cr_needed _ _ _ _ _ _ _ _ _ _ _ R). }
  split; [|split].
  - intros i g Hi Hor. destruct (Forall2_nth _ _ _ (cr_glyphs _ _ _ _ _ _ _ _ _ _ _ R) _ _ Hi) as ([d m] & Hd & (_ & _ & _ & _ & Lm & _ & _ & B)). cbn [fst snd] in *.
    assert (Li : (i < length keys)%nat) by (apply nth_error_Some; congruence).
    assert (E : u16 m 2 = bearing F g).
    { destruct Hor as [N|A]; [auto|]. destruct (Forall2_nth _ _ _ (cr_bearings _ _ _ _ _ _ _ _ _ _ _ R (K A)) _ _ Hi) as (dm & Hd2 & X). rewrite Hd in Hd2. injection Hd2 as <-. exact X. }
    unfold bearing at 1. rewrite (cr_long _ _ _ _ _ _ _ _ _ _ _ R), (cr_hmtx _ _ _ _ _ _ _ _ _ _ _ R). replace (Z.of_nat i <? len keys) with true by lia.
    rewrite <- E. apply concat_u16; [|exact (map_nth_error snd _ _ Hd)|lia|lia].
    apply Forall_map, Forall_forall. intros x Hx. apply In_nth_error in Hx as (j & Hj). destruct (Forall2_nth' _ _ _ (cr_glyphs _ _ _ _ _ _ _ _ _ _ _ R) _ _ Hj) as (g' & _ & (_ & _ & _ & _ & X & _)). exact X.
  - intros A. apply (cr_unchanged _ _ _ _ _ _ _ _ _ _ _ R), K, A.
  - destruct (cr_file _ _ _ _ _ _ _ _ _ _ _ R) as (p & n & (i & Hi & Ti & <- & _) & (L & _ & S)). exists i. split; [exact Hi|]. split; [exact Ti|]. cbn zeta. split; [exact L|]. intros q Hq Hr. apply S; lia.
Qed.
Print Assumptions C65_bearings_partial.
