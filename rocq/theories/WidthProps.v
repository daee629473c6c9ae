(** C67: the widths of the characters of a UTF-8 font; C68: the widths in the document and the glyphs in the document. *)
From Verif Require Import Base KeyMap CidSpec CidModel CidProofs CidProps.
From Verif Require Import DocModel DocProofs DocSort TtfSpec TtfModel TtfProofs TtfProps TtfCmap CutSpec CutModel CutProofs CutClosure CutRead CutGlyphs CutSymbols CutCmap CutOut CutMain CutProps CutExample WidthModel WidthProofs ResSpec ResProofs2.
From Coq Require Import String.
Open Scope Z_scope.
Notation length := List.length.
Notation concat := List.concat.

Definition units_per_em (F : font) : Z := u16 (F_head F) 18.
(** the glyph for a character, if the font has one *)
Definition has_glyph (F : font) (cm : bytes) (o c : Z) : bool := (1 <=? char_glyph cm o c) && (char_glyph cm o c <? glyph_count F).

Lemma parse_font_ret M f F cm o m : parse_font M f = Ret (Some m) -> Forall is_byte f -> font_in f F -> table_in f "cmap" cm ->
  sound_glyphs F -> sound_map cm o -> u16 (F_hhea F) 32 = 0 -> exists dw dir pairs dx dc, let em := units_per_em F in
    read_dir f = Ret dir /\ find_desc dir (bs "hmtx") = Some dx /\ 0 <= t_pos dx /\ 0 <= t_size dx /\ t_pos dx + t_size dx <= len f /\ F_hmtx F = extract f (t_pos dx) (t_size dx) /\
    find_desc dir (bs "cmap") = Some dc /\ 0 <= t_pos dc /\ 0 <= t_size dc /\ t_pos dc + t_size dc <= len f /\ cm = extract f (t_pos dc) (t_size dc) /\ 0 <= o /\ char_symbols f (t_pos dc + o) = Ret pairs /\
    parse_hmtx (fm_round M em) (long_metrics F) (glyph_count F) pairs f dir = Ret (dw, m_cw m) /\ m_missing m = fm_round' M em dw.
Proof.
  intros H Hf (Thead & Tmaxp & Thhea & Thmtx & Tloca & Tglyf) Tcm SG SM Fm. unfold parse_font in H. obr H. destruct (negb _); [discriminate|]. obr H. rename v0 into dir, E0 into Hdir. obr H.
  assert (X : v0 = m) by congruence. subst v0. clear H. rename E0 into H.
  destruct (find_desc_in f dir _ _ Hf Hdir Thead) as (dh & Dh & Ph & Dh0 & Dh1 & Dh2 & Eh).
  destruct (find_desc_in f dir _ _ Hf Hdir Tmaxp) as (dm & Dm & Pm & Dm0 & Dm1 & Dm2 & Em).
  destruct (find_desc_in f dir _ _ Hf Hdir Thhea) as (de & De & Pe & De0 & De1 & De2 & Ee).
  destruct (find_desc_in f dir _ _ Hf Hdir Thmtx) as (h & Dx & Px & Dx0 & Dx1 & Dx2 & Ex).
  destruct (find_desc_in f dir _ _ Hf Hdir Tcm) as (dc & Dc & Pc & Dc0 & Dc1 & Dc2 & Ec).
  pose proof (sg_tables F SG) as (S1 & S2 & S3). rewrite Eh in S1. rewrite Ee in S2. rewrite Em in S3. rewrite extract_len in S1, S2, S3 by lia.
  unfold parse_tables in H. apply obind_ret in H as (nm & En & H). apply obind_ret in H as ([em [[[xmin ymin] xmax] ymax]] & Hh & H).
  unfold parse_head in Hh. rewrite (seek_some _ _ _ Dh) in Hh. cbn [obind] in Hh. apply obind_ret in Hh as (e0 & Ee0 & Hh). apply rd16_ret in Ee0 as (_ & _ & ->). do 6 (let a := fresh "v" in let E := fresh "E" in apply obind_ret in Hh as (a & E & Hh); clear E).
  assert (Eem : em = units_per_em F). { unfold units_per_em. rewrite Eh, u16_extract by lia. congruence. } clear Hh.
  apply obind_ret in H as ([[count asc] desc0] & Hhh & H). unfold parse_hhea in Hhh. rewrite De in Hhh.
  apply obind_ret in Hhh as (h1 & _ & Hhh). apply obind_ret in Hhh as (h2 & _ & Hhh). apply obind_ret in Hhh as (h3 & Eh3 & Hhh).
  apply rd16_ret in Eh3 as (_ & _ & ->). rewrite <- (u16_extract f (t_pos de) (t_size de) 32), <- Ee, Fm in Hhh by lia. change (negb (0 =? 0)) with false in Hhh. cbv iota in Hhh.
  apply obind_ret in Hhh as (h4 & Eh4 & Hhh). apply rd16_ret in Eh4 as (_ & _ & ->). assert (Ecount : count = long_metrics F). { unfold long_metrics. rewrite Ee, u16_extract by lia. congruence. } clear Hhh.
  apply obind_ret in H as (os & _ & H). apply obind_ret in H as ([[[angle up] ut] flags] & _ & H). apply obind_ret in H as (cmp & Hcp & H).
  rewrite (seek_some _ _ _ Dm) in H. cbn [obind] in H. apply obind_ret in H as (num & Enum & H). apply rd16_ret in Enum as (_ & _ & ->).
  rewrite <- (u16_extract f (t_pos dm) (t_size dm) 4), <- Em in H by lia. fold (glyph_count F) in H.
  apply obind_ret in H as (pairs & Hp & H). apply obind_ret in H as ([dw cw] & Hw & H).
  destruct (map_place f dir dc cm o _ Hf Dc Dc0 Dc1 Dc2 Ec SM Hcp) as [Mp O0]. rewrite Mp in Hp. rewrite Eem, Ecount in *. clear Eem Ecount Mp.
  assert (X1 : m_cw m = cw) by (assert (X : exists m', m = m' /\ m_cw m' = cw) by (eexists; split; [symmetry; injection H as H; exact H|reflexivity]); destruct X as (m' & -> & X); exact X).
  assert (X2 : m_missing m = fm_round' M (units_per_em F) dw) by (assert (X : exists m', m = m' /\ m_missing m' = fm_round' M (units_per_em F) dw) by (eexists; split; [symmetry; injection H as H; exact H|reflexivity]); destruct X as (m' & -> & X); exact X).
  exists dw, dir, pairs, h, dc. cbv zeta. rewrite X1. repeat (split; [assumption|]). assumption.
Qed.

(** ** C67 *)
(** The width table of an added font: for each character from 1 to 65534 with a glyph, the advance width of the glyph in
    thousandths of the em, rounded (65535 stands for 0); 0 for the other characters, which get the width of glyph 0. *)
Definition C67_statement : Prop := forall (M : fmath) (f : bytes) (F : font) (cm : bytes) (o : Z) (m : metrics),
  parse_font M f = Ret (Some m) -> Forall is_byte f -> font_in f F -> table_in f "cmap" cm -> sound_glyphs F -> sound_map cm o -> u16 (F_hhea F) 32 = 0 ->
  let em := units_per_em F in
  length (m_cw m) = Z.to_nat 65536 /\ m_missing m = fm_round' M em (advance F 0) /\
  forall c, 1 <= c <= 65534 ->
    nth_error (m_cw m) (Z.to_nat c) = Some (if has_glyph F cm o c then let w := fm_round M em (advance F (char_glyph cm o c)) in if w =? 0 then 65535 else w else 0).
(** Proved for fonts with advance widths up to 32767. *)
Theorem C67_widths_partial : forall (M : fmath) (f : bytes) (F : font) (cm : bytes) (o : Z) (m : metrics),
  parse_font M f = Ret (Some m) -> Forall is_byte f -> font_in f F -> table_in f "cmap" cm -> sound_glyphs F -> sound_map cm o -> u16 (F_hhea F) 32 = 0 ->
  (forall g, 0 <= g < glyph_count F -> advance F g <= 32767) ->
  let em := units_per_em F in
  length (m_cw m) = Z.to_nat 65536 /\ m_missing m = fm_round' M em (advance F 0) /\
  forall c, 1 <= c <= 65534 ->
    nth_error (m_cw m) (Z.to_nat c) = Some (if has_glyph F cm o c then let w := fm_round M em (advance F (char_glyph cm o c)) in if w =? 0 then 65535 else w else 0).
Proof.
  intros M f F cm o m H Hf HF Hc SG SM Fm Sm em. destruct (parse_font_ret M f F cm o m H Hf HF Hc SG SM Fm) as (dw & dir & pairs & h & dc & _ & Dx & Dx0 & Dx1 & Dx2 & Ex & Dc & Dc0 & Dc1 & Dc2 & Ec & O0 & Hp & Hw & Hm).
  assert (SM' := SM). rewrite Ec in SM'. fold em in Hw, Hm. pose proof (dict_pair f _ _ o pairs Hf Dc0 Dc1 Dc2 O0 SM' Hp) as DP. cbv zeta in DP. rewrite <- Ec in DP.
  pose proof (dict_lookup f _ _ o pairs Hf Dc0 Dc1 Dc2 O0 SM' Hp) as DL. cbv zeta in DL. rewrite <- Ec in DL.
  destruct (parse_hmtx_ret (fm_round M em) f dir h F pairs dw (m_cw m) Hf Dx Ex Dx0 Dx1 Dx2 SG) as (R1 & R2 & R3); [intros g Hg; specialize (Sm g Hg); lia|exact (char_symbols_range f _ pairs Hf Hp)| |exact Hw|].
  { intros c g g' H1 H2. apply DP in H1, H2. congruence. }
  split; [exact R2|]. split; [now rewrite Hm, R1|]. intros c Hcr. destruct (R3 c ltac:(lia)) as (w & Nw & W1 & W2). rewrite Nw. f_equal.
  unfold has_glyph, char_glyph. replace ((0 <=? c) && (c <=? 65535)) with true by lia. specialize (DL c ltac:(lia)).
  destruct (char_symbol pairs c) as [g|] eqn:Es.
  - assert (I : In (c, g) pairs). { unfold char_symbol in Es. destruct (find _ (rev pairs)) as [[c' g']|] eqn:Ef; [|discriminate]. apply find_some in Ef as [E1 E2]. cbn in E2, Es. apply Z.eqb_eq in E2. rewrite in_rev. congruence. }
    rewrite DL. destruct ((1 <=? g) && (g <? glyph_count F)) eqn:Eg.
    + cbv zeta. fold (stored (fm_round M em (advance F g))). apply (W1 g I); lia.
    + apply W2. right. intros g' Hg'. rewrite (DP _ _ Hg') in DL. lia.
  - rewrite DL. change ((1 <=? 0) && (0 <? glyph_count F)) with false. cbv iota. apply W2. right. intros g' Hg'. rewrite (DP _ _ Hg') in DL. lia.
Qed.
Print Assumptions C67_widths_partial.

(** ** C68 *)
(** the width PDF gives to a CID: from the W array, otherwise the default width, which is 1000 if there is none *)
Definition declared (L : list (Z * Z)) (missing c : Z) : Z :=
  match find (fun p => fst p =? c) L with Some p => snd p | None => if missing =? 0 then 1000 else missing end.
(** the glyph for a CID: two bytes of the CIDToGIDMap *)
Definition mapped (gm : bytes) (c : Z) : Z := u16 gm (2 * c).
(** the map usedRunes has the values [c -> c] for the characters in use *)
Definition runes_of (used : list Z) (c : Z) : Z := if existsb (Z.eqb c) used then c else 0.
(** the two roundings agree and give widths below 65535 *)
Definition rounding (M : fmath) (em : Z) : Prop := forall v, 0 <= v <= 32767 -> 0 <= fm_round M em v < 65535 /\ fm_round' M em v = fm_round M em v.

(** Every font in a document: the W array, the map from CIDs to glyphs and the embedded font agree on the width of each
    character in use. *)
Definition C68_statement : Prop := forall (M : fmath) (f : bytes) (F : font) (cm : bytes) (o : Z) (m : metrics) fuel (used : list Z) (c : cut),
  parse_font M f = Ret (Some m) -> cut_font fuel f used = Ret (Some c) -> Forall is_byte f -> font_in f F -> table_in f "cmap" cm ->
  sound_glyphs F -> sound_map cm o -> separate_tables f -> u16 (F_hhea F) 32 = 0 ->
  (forall g, 0 <= g < glyph_count F -> advance F g <= 32767) -> rounding M (units_per_em F) -> len used < 32767 -> len (c_font c) < 2 ^ 32 ->
  exists line L gm G, w_line (m_cw m) (runes_of used) (c_last c) = Ret line /\ w_entry line L /\ gid_map (c_runes c) gid_zero = Some gm /\ font_in (c_font c) G /\
    forall ch, In ch used -> 1 <= ch <= 65534 -> declared L (m_missing m) ch = fm_round M (units_per_em F) (advance G (mapped gm ch)).

Lemma gid_map_total gids : Forall (fun p => 0 <= fst p <= 65535) gids -> forall m, zlen m = 131072 -> exists gm, gid_map gids m = Some gm.
Proof.
  intros HF. induction HF as [|[cc g] l Hx HF IH]; intros m Hm; cbn [gid_map]; [eexists; reflexivity|]. cbn [fst] in Hx. rewrite Hm. replace ((0 <=? cc) && (cc * 2 + 1 <? 131072)) with true by lia.
  apply IH. unfold zlen in *. now rewrite !DocProofs.set_nth_length.
Qed.
Lemma find_map (L : list (Z * Z)) c w : NoDup (map fst L) -> In (c, w) L -> find (fun p => fst p =? c) L = Some (c, w).
Proof.
  induction L as [|[a b] L IH]; [intros _ []|]. intros N [E|I]; cbn [find fst].
  - injection E as -> ->. now rewrite Z.eqb_refl.
  - cbn [map fst] in N. inversion N as [|? ? N1 N2]; subst. destruct (a =? c) eqn:E; [|auto]. apply Z.eqb_eq in E. subst a. exfalso. apply N1. change c with (fst (c, w)). now apply in_map.
Qed.
Lemma cut_last fuel f used c : cut_font fuel f used = Ret (Some c) -> c_last c = fold_left Z.max used 0.
Proof.
  intros H. unfold cut_font in H. do 8 (let a := fresh "a" in let E := fresh "E" in apply obind_ret in H as (a & E & H)). destruct a6 as [o|]; [|discriminate].
  do 4 (let a := fresh "b" in let E := fresh "E" in apply obind_ret in H as (a & E & H)). apply obind_ret in H as ([[runes y] last] & Ep & H).
  assert (X : last = fold_left Z.max used 0). { unfold parse_symbols in Ep. obr Ep. obr Ep. congruence. }
  do 6 (let a := fresh "d" in let E := fresh "E" in apply obind_ret in H as (a & E & H)). destruct (cut_loca _ _) as [format loca].
  do 11 (let a := fresh "e" in let E := fresh "E" in apply obind_ret in H as (a & E & H)). rewrite <- X. assert (Y : exists c', c = c' /\ c_last c' = last) by (eexists; split; [symmetry; injection H as H; exact H|reflexivity]).
  destruct Y as (c' & -> & Y). exact Y.
Qed.
Lemma fold_max_le l : forall a b, a <= b -> Forall (fun x => x <= b) l -> fold_left Z.max l a <= b.
Proof. induction l as [|x l IH]; intros a b Ha HF; cbn [fold_left]; [exact Ha|]. inversion HF; subst. apply IH; [lia|assumption]. Qed.
Lemma fold_max_mono l : forall a, a <= fold_left Z.max l a.
Proof. induction l as [|x l IH]; intros a; cbn [fold_left]; [lia|]. specialize (IH (Z.max a x)). lia. Qed.

(** Proved for characters up to U+FFFF, when the width of glyph 0 does not round to 0. *)
Theorem C68_declared_widths_partial : forall (M : fmath) (f : bytes) (F : font) (cm : bytes) (o : Z) (m : metrics) fuel (used : list Z) (c : cut),
  parse_font M f = Ret (Some m) -> cut_font fuel f used = Ret (Some c) -> Forall is_byte f -> font_in f F -> table_in f "cmap" cm ->
  sound_glyphs F -> sound_map cm o -> separate_tables f -> u16 (F_hhea F) 32 = 0 ->
  (forall g, 0 <= g < glyph_count F -> advance F g <= 32767) -> rounding M (units_per_em F) -> len used < 32767 -> len (c_font c) < 2 ^ 32 ->
  Forall (fun ch => 1 <= ch <= 65535) used -> fm_round M (units_per_em F) (advance F 0) <> 0 ->
  exists line L gm G, w_line (m_cw m) (runes_of used) (c_last c) = Ret line /\ w_entry line L /\ gid_map (c_runes c) gid_zero = Some gm /\ font_in (c_font c) G /\
    forall ch, In ch used -> 1 <= ch <= 65534 -> declared L (m_missing m) ch = fm_round M (units_per_em F) (advance G (mapped gm ch)).
Proof.
  intros M f F cm o m fuel used c HP HC Hf HF Hc SG SM Sep Fm Sm Ro Lu Lf Us Nz. set (em := units_per_em F) in *.
  destruct (C67_widths_partial M f F cm o m HP Hf HF Hc SG SM Fm Sm) as (CL & MI & CW). fold em in MI, CW.
  destruct (parse_font_ret M f F cm o m HP Hf HF Hc SG SM Fm) as (dw & dir & pairs & h & dc & _ & Dx & Dx0 & Dx1 & Dx2 & Ex & Dc & Dc0 & Dc1 & Dc2 & Ec & O0 & Hp & Hw & Hm). fold em in Hw, Hm.
  destruct (C64_subset_font fuel f used c F cm o HC Hf HF Hc SG SM Sep Lu Lf) as (keys & ren & G & cm' & GF & _ & KN & K0 & GC & KN' & KG & _ & CR & CR' & _).
  assert (BM : Forall is_byte (F_maxp F)) by (destruct HF as (_ & (i & _ & _ & <- & _) & _); now apply extract_bytes).
  assert (BX : Forall is_byte (F_hmtx F)) by (destruct HF as (_ & _ & _ & (i & _ & _ & <- & _) & _); now apply extract_bytes).
  assert (GCr : 0 <= glyph_count F < 65536) by apply (u16_range _ _ BM).
  assert (AD : forall g, 0 <= g < glyph_count F -> 0 <= advance F g <= 32767) by (intros g Hg; split; [apply (u16_range _ _ BX)|auto]).
  assert (G0 : 0 < glyph_count F) by (pose proof (sg_long F SG); lia).
  (* the glyphs kept are glyphs of the font *)
  destruct (cut_font_ret fuel f used c F cm o HC Hf HF Hc SG SM Sep Lu Lf) as (keys2 & set2 & dms2 & G2 & cm2 & R2).
  assert (KIN : forall g, needed F (0 :: map (char_glyph cm o) used) g -> 0 <= g < glyph_count F).
  { intros g Hg. apply (cr_needed _ _ _ _ _ _ _ _ _ _ _ R2) in Hg. apply In_nth_error in Hg as (k & Hk). destruct (Forall2_nth _ _ _ (cr_glyphs _ _ _ _ _ _ _ _ _ _ _ R2) _ _ Hk) as (dm & _ & (B & _)). exact B. }
  (* the W array *)
  assert (NN : Forall (fun w => 0 <= w) (m_cw m)).
  { apply Forall_forall. intros w Hi. apply In_nth_error in Hi as (k & Hk). assert (Lk : (k < length (m_cw m))%nat) by (apply nth_error_Some; congruence).
    destruct k as [|k].
    - destruct (parse_hmtx_first _ _ _ _ _ _ _ _ Hw) as (n & t & E & Hn). rewrite E in Hk. cbn in Hk. congruence.
    - destruct (Z.eq_dec (Z.of_nat (S k)) 65535) as [E|E].
      + destruct (parse_hmtx_ret (fm_round M em) f dir h F pairs dw (m_cw m) Hf Dx Ex Dx0 Dx1 Dx2 SG) as (_ & _ & R3); [intros g Hg; specialize (Sm g Hg); lia|exact (char_symbols_range f _ pairs Hf Hp)| |exact Hw|].
        { assert (SM' := SM). rewrite Ec in SM'. pose proof (dict_pair f _ _ o pairs Hf Dc0 Dc1 Dc2 O0 SM' Hp) as DP. cbv zeta in DP. rewrite <- Ec in DP. intros x g g' H1 H2. apply DP in H1, H2. congruence. }
        destruct (R3 65535 ltac:(lia)) as (w' & Nw & _ & W2). rewrite <- E in Nw at 1. rewrite Nat2Z.id in Nw. rewrite W2 in Nw by now left. assert (X : w = 0) by congruence. lia.
      + specialize (CW (Z.of_nat (S k)) ltac:(lia)). rewrite Nat2Z.id in CW. assert (X := CW). rewrite Hk in X. cbv zeta in X. destruct (has_glyph F cm o (Z.of_nat (S k))) eqn:Eh; [|assert (Y : w = 0) by congruence; lia].
        unfold has_glyph in Eh. destruct (Ro (advance F (char_glyph cm o (Z.of_nat (S k)))) ltac:(apply AD; lia)) as [Y _]. destruct (_ =? 0); assert (Q : w = 65535 \/ w = fm_round M em (advance F (char_glyph cm o (Z.of_nat (S k))))) by (left + right; congruence); destruct Q as [-> | ->]; lia. }
  pose proof (cut_last _ _ _ _ HC) as CLs. assert (LB : 0 <= c_last c <= 65535). { rewrite CLs. split; [apply fold_max_mono|]. apply fold_max_le; [lia|]. eapply Forall_impl; [|exact Us]. intros; cbn in *; lia. }
  destruct (C41_widths_array (m_cw m) (runes_of used) (c_last c)) as (line & L & W1 & W2 & W3 & W4); [rewrite CL; lia|exact NN|].
  assert (RB : Forall (fun p => 0 <= fst p <= 65535) (c_runes c)).
  { apply Forall_forall. intros [a b] Hi. apply CR in Hi as [Hu _]. rewrite Forall_forall in Us. specialize (Us a Hu). cbn [fst]. lia. }
  destruct (gid_map_total (c_runes c) RB gid_zero) as (gm & Gm); [unfold gid_zero, zlen; rewrite repeat_length; lia|].
  exists line, L, gm, G. split; [exact W1|]. split; [exact W2|]. split; [exact Gm|]. split; [exact GF|]. intros ch Hu Hr.
  (* the glyph *)
  assert (GI : 0 <= char_glyph cm o ch < glyph_count F) by (apply KIN; apply need_self; right; now apply in_map).
  assert (KI : In (char_glyph cm o ch) keys) by (apply KN'; apply need_self; right; now apply in_map).
  apply In_nth_error in KI as (k & Hk). destruct (KG k _ Hk) as (Rk & Ak & _).
  assert (R0 : ren 0 = 0) by exact (proj1 (KG 0%nat 0 K0)).
  assert (Kl : 0 <= Z.of_nat k < 65536).
  { assert (Lk : (k < length keys)%nat) by (apply nth_error_Some; congruence). assert (Y : (length keys <= length (range 0 (Z.to_nat (glyph_count F))))%nat); [|rewrite range_len in Y; lia]. apply NoDup_incl_length; [exact KN|].
    intros g Hg. apply KN', KIN in Hg. apply in_range. lia. }
  assert (MP : mapped gm ch = Z.of_nat k).
  { destruct (gid_map_glyphs _ _ Gm) as [_ GM]. specialize (GM ch ltac:(lia)). cbv zeta in GM.
    set (g := match find (fun p => fst p =? ch) (rev (c_runes c)) with Some p => snd p | None => 0 end) in *.
    assert (Eg : g = Z.of_nat k).
    { unfold g. destruct (find (fun p => fst p =? ch) (rev (c_runes c))) as [[a b]|] eqn:Ef.
      - apply find_some in Ef as [E1 E2]. cbn [fst] in E2. apply Z.eqb_eq in E2. subst a. rewrite <- in_rev in E1. apply CR in E1 as [_ ->]. exact Rk.
      - destruct (Z.eq_dec (char_glyph cm o ch) 0) as [E0|E0]; [rewrite <- Rk, E0; symmetry; exact R0|].
        pose proof (CR' ch Hu ltac:(lia) E0) as I. rewrite in_rev in I. pose proof (find_none _ _ Ef _ I) as X. cbn [fst] in X. rewrite Z.eqb_refl in X. discriminate. }
    destruct GM as [G1 G2']. unfold mapped, u16, byte_at. rewrite (nth_error_nth _ _ _ G1), (nth_error_nth _ _ _ G2'), Eg.
    rewrite (Z.mod_small (Z.of_nat k / 256)) by (split; [apply Z.div_pos; lia|apply Z.div_lt_upper_bound; lia]). pose proof (Z.div_mod (Z.of_nat k) 256 ltac:(lia)). lia. }
  rewrite MP, Ak. clear MP. specialize (CW ch Hr). cbv zeta in CW. unfold declared.
  assert (Lch : ch <= c_last c). { rewrite CLs. apply (proj2 (fold_max_ge used 0) ch Hu). }
  destruct (has_glyph F cm o ch) eqn:Eh.
  - destruct (Ro (advance F (char_glyph cm o ch)) (AD _ GI)) as [Rr _]. set (w := fm_round M em (advance F (char_glyph cm o ch))) in *.
    assert (I : In (ch, w) L).
    { apply W4. split; [lia|]. exists (if w =? 0 then 65535 else w). split; [exact CW|]. split; [destruct (w =? 0) eqn:E; lia|]. split.
      - right. unfold runes_of. replace (existsb (Z.eqb ch) used) with true; [lia|]. symmetry. apply existsb_exists. exists ch. split; [exact Hu|apply Z.eqb_refl].
      - destruct (w =? 0) eqn:E; [change (65535 =? 65535) with true; cbv iota; lia|]. replace (w =? 65535) with false by lia. reflexivity. }
    rewrite (find_map L ch w W3 I). reflexivity.
  - assert (E0 : char_glyph cm o ch = 0) by (unfold has_glyph in Eh; lia).
    assert (N : find (fun p => fst p =? ch) L = None).
    { destruct (find (fun p => fst p =? ch) L) as [[a b]|] eqn:Ef; [|reflexivity]. apply find_some in Ef as [I E]. cbn [fst] in E. apply Z.eqb_eq in E. subst a. apply W4 in I as (_ & x & Nx & X0 & _). congruence. }
    rewrite N, MI, E0. destruct (Ro (advance F 0) ltac:(apply AD; lia)) as [_ ->]. replace (fm_round M em (advance F 0) =? 0) with false by lia. reflexivity.
Qed.
Print Assumptions C68_declared_widths_partial.
