(** C64: the font made of the characters in use shows them as the font it is made from. *)
From Verif Require Import Base DocModel DocSort TtfSpec TtfModel TtfProofs TtfProps TtfCmap CutSpec CutModel CutProofs CutClosure CutRead CutGlyphs CutSymbols CutCmap CutOut CutMain.
From Coq Require Import String Permutation.
Open Scope Z_scope.
Notation length := List.length.
Notation concat := List.concat.

(** what [cut_font] did, in terms of the font [F] with the character map [cm], [o] *)
Record cut_result (f : bytes) (F : font) (cm : bytes) (o : Z) (used : list Z) (c : cut) (keys : list Z) (set : list (Z * Z)) (dms : list (bytes * bytes)) (G : font) (cm' : bytes) : Prop := {
  cr_nodup : NoDup keys;
  cr_first : nth_error keys 0 = Some 0;
  cr_set : forall g i, index_of set g = Some i <-> 0 <= i /\ nth_error keys (Z.to_nat i) = Some g;
  cr_needed : forall g, In g keys <-> needed F (0 :: map (char_glyph cm o) used) g;
  cr_glyphs : Forall2 (new_glyph F set) keys dms;
  cr_bearings : (forall g, In g keys -> g < long_metrics F) -> Forall2 (fun g dm => u16 (snd dm) 2 = bearing F g) keys dms;
  cr_unchanged : (forall g, In g keys -> g < long_metrics F) -> c_file c = f;
  cr_font : font_in (c_font c) G;
  cr_cmap : table_in (c_font c) "cmap" cm';
  cr_glyf : F_glyf G = concat (map fst dms);
  cr_hmtx : F_hmtx G = concat (map snd dms);
  cr_loca : forall i, (i <= length keys)%nat -> nth_error (offs 0 (map fst dms)) i = Some (loca_at G (Z.of_nat i));
  cr_count : glyph_count G = len keys;
  cr_long : long_metrics G = len keys;
  cr_map : forall ch, 1 <= ch <= 65535 -> cmap_glyph cm' ch = Some (if existsb (Z.eqb ch) used then new_number set (char_glyph cm o ch) else 0);
  cr_runes : forall ch i, In (ch, i) (c_runes c) -> In ch used /\ 1 <= ch <= 65535 /\ i = new_number set (char_glyph cm o ch);
  cr_runes' : forall ch, In ch used -> 1 <= ch -> char_glyph cm o ch <> 0 -> In (ch, new_number set (char_glyph cm o ch)) (c_runes c);
  cr_last : Forall (fun ch => ch <= c_last c) used;
  cr_head : exists h1, changed_only 50 51 (F_head F) h1 /\ changed_only 8 11 h1 (F_head G);
  cr_hhea : changed_only 34 35 (F_hhea F) (F_hhea G);
  cr_maxp : changed_only 4 5 (F_maxp F) (F_maxp G);
  cr_copied : forall name data, In name ["name"; "cvt "; "fpgm"; "prep"; "gasp"; "OS/2"]%string -> table_in f name data -> data <> [] -> table_in (c_font c) name data;
  cr_file : exists p n, placed f "hmtx" p n /\ same_but (p + 4 * (long_metrics F - 1) + 2) f (c_file c) }.

Lemma byte_overwrite8 (b adj : bytes) : length adj = 4%nat -> 12 <= len b -> changed_only 8 11 b (firstn 8 b ++ adj ++ skipn 12 b).
Proof.
  intros La Lb. destruct (overwrite_byte b 8 adj) as [L1 L2]; [lia|lia|]. unfold overwrite in *. rewrite La in *. change (Z.to_nat 8 + 4)%nat with 12%nat in *. change (Z.to_nat 8) with 8%nat in *.
  split; [exact L1|]. intros q Hq Hr. apply L2; lia.
Qed.
Lemma changed_trans a b s s1 s2 : changed_only a b s s1 -> changed_only a b s1 s2 -> changed_only a b s s2.
Proof. intros [L1 H1] [L2 H2]. split; [lia|]. intros q Hq Hr. rewrite H2, H1 by assumption. reflexivity. Qed.
Lemma changed_u16 a b s s' q : changed_only a b s s' -> 0 <= q -> q + 1 < a \/ b < q -> u16 s' q = u16 s q.
Proof. intros [_ H] Hq Hr. apply u16_same; [exact Hq| |]; apply H; lia. Qed.

(** a patched table of the changed file [f'] *)
Lemma patched f f' dir P h name data o v r d : Forall is_byte f -> same_but P f f' -> separate_tables f -> read_dir f = Ret dir ->
  (exists hn, placed f "hmtx" h hn /\ h <= P /\ P + 2 <= h + hn) -> bs name <> bs "hmtx" -> 0 <= o ->
  table_in f name data -> table_data f' dir name = Ret r -> patch r o v = Ret d ->
  exists b, d = Some b /\ o + 2 <= len data /\ u16 b o = v mod 65536 /\ changed_only o (o + 1) data b /\ Forall is_byte b.
Proof.
  intros Hf S Sep Hd (hn & Hh & P1 & P2) Hne Ho T R D. destruct (find_desc_in f dir name data Hf Hd T) as (ds & F1 & F2 & F3 & F4 & F5 & ->).
  unfold table_data in R. rewrite F1 in R. destruct (t_size ds =? 0) eqn:E0.
  - injection R as <-. rewrite patch_none in D by exact Ho. discriminate.
  - obr R. injection R as <-. apply rd_ret in E as (_ & _ & _ & ->).
    rewrite (extract_same P f f') in D by (auto; pose proof (placed_apart f name "hmtx" _ _ _ _ Sep Hne F2 Hh); lia).
    apply patch_ret in D as (b & -> & _ & D1 & D2 & D3 & D4 & D5). exists b. split; [reflexivity|]. split; [exact D1|]. split; [exact D3|]. split; [|apply D5; now apply extract_bytes].
    split; [exact D2|]. intros q Hq Hr. apply D4; lia.
Qed.

Lemma NoDup_app_ {A} (l1 l2 : list A) : NoDup l1 -> NoDup l2 -> (forall x, In x l1 -> In x l2 -> False) -> NoDup (l1 ++ l2).
Proof.
  intros N1 N2 D. induction N1 as [|x l1 Hx N1 IH]; [exact N2|]. cbn. constructor; [|apply IH; intros y Hy; apply D; now right].
  rewrite in_app_iff. intros [H|H]; [contradiction|]. apply (D x); [now left|exact H].
Qed.
Lemma cut_post_bytes p b : (forall t, p = Some t -> Forall is_byte t) -> cut_post p = Ret b -> Forall is_byte b.
Proof.
  intros Hp H. unfold cut_post in H. destruct p as [t|]; [|discriminate]. specialize (Hp t eq_refl). destruct (slice t 4 16) as [m|] eqn:E; [|discriminate].
  assert (Hm : Forall is_byte m). { unfold slice in E. destruct (_ && _ && _); [|discriminate]. assert (X : Some (extract t 4 12) = Some m) by exact E. assert (Y : m = extract t 4 12) by congruence. rewrite Y. now apply extract_bytes. }
  assert (X : b = [0; 3; 0; 0] ++ m ++ repeat 0 16) by congruence. rewrite X. apply Forall_app. split; [repeat constructor; unfold is_byte; lia|]. apply Forall_app. split; [exact Hm|apply repeat0_bytes].
Qed.
Lemma cmap_table_bytes pairs n t : cmap_table pairs n = Ret t -> Forall is_byte t.
Proof.
  unfold cmap_table. destruct (pow2_loop _ _ _ _) as [size sel]. destruct (negb _); [discriminate|]. set (ws := (_ ++ _)%list). intros H. assert (X : t = flat_map pack16 ws) by congruence. rewrite X. apply flat_map_bytes. apply pack16_bytes.
Qed.
Lemma concat_prefix_le (l : list bytes) i : len (concat (firstn i l)) <= len (concat l).
Proof. rewrite <- (firstn_skipn i l) at 2. rewrite concat_app, app_length. lia. Qed.
Lemma Forall2_len {A B} (R : A -> B -> Prop) l l' : Forall2 R l l' -> length l = length l'.
Proof. induction 1; cbn; congruence. Qed.

Lemma cut_font_ret fuel f used c F cm o : cut_font fuel f used = Ret (Some c) -> Forall is_byte f -> font_in f F -> table_in f "cmap" cm ->
  sound_glyphs F -> sound_map cm o -> separate_tables f -> len used < 32767 -> len (c_font c) < 2 ^ 32 ->
  exists keys set dms G cm', cut_result f F cm o used c keys set dms G cm'.
Proof.
  intros H Hf (Thead & Tmaxp & Thhea & Thmtx & Tloca & Tglyf) Tcm SG SM Sep Lu Lf.
  unfold cut_font in H. obr H. rename v into dir, E into Hdir.
  destruct (find_desc_in f dir _ _ Hf Hdir Thead) as (dh & Dh & Ph & Dh0 & Dh1 & Dh2 & Eh).
  destruct (find_desc_in f dir _ _ Hf Hdir Tmaxp) as (dm & Dm & Pm & Dm0 & Dm1 & Dm2 & Em).
  destruct (find_desc_in f dir _ _ Hf Hdir Thhea) as (de & De & Pe & De0 & De1 & De2 & Ee).
  destruct (find_desc_in f dir _ _ Hf Hdir Thmtx) as (h & Dx & Px & Dx0 & Dx1 & Dx2 & Ex).
  destruct (find_desc_in f dir _ _ Hf Hdir Tloca) as (dl & Dl & Pl & Dl0 & Dl1 & Dl2 & El).
  destruct (find_desc_in f dir _ _ Hf Hdir Tglyf) as (gl & Dg & Pg & Dg0 & Dg1 & Dg2 & Eg).
  destruct (find_desc_in f dir _ _ Hf Hdir Tcm) as (dc & Dc & Pc & Dc0 & Dc1 & Dc2 & Ec).
  rewrite (seek_some _ _ _ Dh) in H. cbn [obind] in H. obr H. apply rd16_ret in E as (_ & _ & ->).
  rewrite (seek_some _ _ _ De) in H. cbn [obind] in H. obr H. apply rd16_ret in E as (_ & _ & ->).
  rewrite (seek_some _ _ _ Dm) in H. cbn [obind] in H. obr H. apply rd16_ret in E as (_ & _ & ->).
  obr H. destruct v as [o'|]; [|discriminate]. rename E into Hcp.
  obr H. rename v into dict, E into Hdict. rewrite (seek_some _ _ _ Dx) in H. cbn [obind] in H. obr H. clear E v.
  obr H. rename v into locs, E into Hlocs0. obr H. destruct v as [[runes y] last]. rename E into Hps.
  obr H. rename v into post0, E into Hpost0. obr H. rename v into post, E into Hpost. obr H. rename v into cmap, E into Hcmap.
  rewrite (seek_some _ _ _ Dg) in H. cbn [obind] in H. obr H. rename v into glyf, E into Hglyf. obr H. rename v into s, E into Hput.
  destruct (cut_loca (g_offsets s ++ [g_pos s]) (g_pos s)) as [format loca] eqn:Hloca.
  obr H. rename v into copied, E into Hcopied.
  obr H. rename v into head0, E into H1. obr H. rename v into head1, E into H2. obr H. rename v into head2, E into H3.
  obr H. rename v into hhea0, E into H4. obr H. rename v into hhea1, E into H5. obr H. rename v into hhea2, E into H6.
  obr H. rename v into maxp0, E into H7. obr H. rename v into maxp1, E into H8. obr H. rename v into maxp2, E into H9.
  obr H. rename v into font, E into Hasm. injection H as <-. cbn [c_font c_runes c_last c_file] in *.
  match goal with _ : cmap_table ?r ?n = Ret cmap |- _ => set (rs := r) in *; set (n0 := n) in * end.
  destruct (sg_tables F SG) as (TL1 & TL2 & TL3). rewrite Eh in TL1. rewrite Ee in TL2. rewrite Em in TL3. rewrite extract_len in TL1, TL2, TL3 by lia.
  assert (Efmt : u16 f (t_pos dh + 50) = u16 (F_head F) 50) by (rewrite Eh, u16_extract by lia; reflexivity).
  assert (Ecnt : u16 f (t_pos de + 34) = long_metrics F) by (unfold long_metrics; rewrite Ee, u16_extract by lia; reflexivity).
  assert (Enum : u16 f (t_pos dm + 4) = glyph_count F) by (unfold glyph_count; rewrite Em, u16_extract by lia; reflexivity).
  rewrite Efmt, Enum in Hlocs0. rewrite Ecnt in Hput.
  assert (Hgc : 0 <= glyph_count F < 65536) by (rewrite <- Enum; now apply u16_range).
  pose proof (parse_loca_ret f dir dl F locs Dl El Dl0 Dl1 Dl2 SG ltac:(lia) Hlocs0) as Hlocs. clear Hlocs0.
  assert (L0 : forall g, 0 <= loca_at F g) by (apply (loca_nonneg f F Hf); eauto).
  (* the character map *)
  assert (Eo : o' = t_pos dc + o /\ 0 <= o).
  { unfold cmap_position in Hcp. rewrite (seek_some _ _ _ Dc) in Hcp. cbn [obind] in Hcp. obr Hcp. apply rd16_ret in E as (_ & _ & ->).
    assert (CL : len cm = t_size dc) by (rewrite Ec; apply extract_len; lia). assert (CB : Forall is_byte cm) by (rewrite Ec; now apply extract_bytes).
    pose proof (sm_records cm o SM) as R. pose proof (u16_range cm 2 CB) as U. rewrite <- (u16_extract f (t_pos dc) (t_size dc) 2), <- Ec in Hcp by lia.
    destruct (find_cmap_ret f (t_pos dc) (t_size dc) Hf Dc0 Dc1 Dc2 (Z.to_nat (u16 cm 2)) 4 o' ltac:(lia) ltac:(lia)) as (o2 & O1 & O2 & O3).
    - rewrite <- Ec. intros i Hi. rewrite <- CL. apply (sm_inside cm o SM). lia.
    - exact Hcp.
    - rewrite <- Ec in O1. pose proof (sm_found cm o SM) as Fd. unfold unicode_map in Fd. rewrite Fd in O1. injection O1 as <-. auto. }
  destruct Eo as [-> O0]. assert (SM' := SM). rewrite Ec in SM'.
  pose proof (dict_lookup f (t_pos dc) (t_size dc) o dict Hf Dc0 Dc1 Dc2 O0 SM' Hdict) as Lk. cbn zeta in Lk. rewrite <- Ec in Lk.
  pose proof (char_symbols_range f _ dict Hf Hdict) as DR.
  assert (Hdom : forall ch g, char_symbol dict ch = Some g -> 0 <= ch <= 65535 /\ 0 <= g <= 65535 /\ g = char_glyph cm o ch).
  { intros ch g Hs. assert (R : 0 <= ch <= 65535 /\ 0 <= g <= 65535).
    { unfold char_symbol in Hs. destruct (find _ (rev dict)) as [[c' g']|] eqn:Ef; [|discriminate]. cbn in Hs. injection Hs as ->. apply find_some in Ef as [E1 E2]. cbn in E2. apply Z.eqb_eq in E2. subst c'.
      rewrite <- in_rev in E1. rewrite Forall_forall in DR. exact (DR _ E1). }
    split; [lia|]. split; [lia|]. specialize (Lk ch (proj1 R)). rewrite Hs in Lk. unfold char_glyph. replace ((0 <=? ch) && (ch <=? 65535)) with true by lia. now symmetry. }
  assert (Hnone : forall ch, char_symbol dict ch = None -> char_glyph cm o ch = 0).
  { intros ch Hs. unfold char_glyph. destruct ((0 <=? ch) && (ch <=? 65535)) eqn:E; [|reflexivity]. specialize (Lk ch ltac:(lia)). now rewrite Hs in Lk. }
  (* the glyphs *)
  destruct (parse_symbols_ret fuel f dir gl locs dict used runes y last Hf Dg) as (Ny & K0 & KR & Rf & Ri); [eapply Forall_impl; [|exact DR]; intros ? [_ ?]; lia|exact Hps|].
  assert (Hgsz : t_size gl <> 0). { intros Z0. apply (sg_glyf F SG). rewrite Eg, Z0. reflexivity. }
  assert (Hwhole : (match glyf with Some _ => true | None => false end) = true).
  { unfold table_data in Hglyf. rewrite Dg in Hglyf. replace (t_size gl =? 0) with false in Hglyf by lia. obr Hglyf. now injection Hglyf as <-. }
  rewrite Hwhole in Hput. pose proof (placed_apart f "hmtx" "glyf" _ _ _ _ Sep ltac:(discriminate) Px Pg) as Apart.
  destruct (put_glyphs_ret f dir F h gl locs (y_set y) Dx Dx0 Dx1 Dx2 Ex Dg0 Dg1 Dg2 Eg Apart SG Hlocs (fun g _ => L0 g) (y_keys y) {| g_offsets := []; g_glyf := []; g_pos := 0; g_hmtx := []; g_file := f |} s) as (dms & NG & OF & GF & HM & PS & SB & BR & UF);
    [split; [reflexivity|split; [exact Hf|reflexivity]]|reflexivity|exact Hput|]. cbn [g_offsets g_pos g_glyf g_hmtx g_file app] in OF, GF, HM, PS, BR, UF.
  assert (KB : forall g, In g (y_keys y) -> 0 <= g < glyph_count F /\ (composite (glyph F g) = true -> exists fields, components (glyph F g) 10 fields)).
  { intros g Hg. apply In_nth_error in Hg as (k & Hk). destruct (Forall2_nth _ _ _ NG _ _ Hk) as (dmi & _ & (R & (body & kk & _ & _ & _ & _ & Cc) & _)). split; [exact R|].
    intros X. destruct (Cc X) as (fields & Cf & _). eauto. }
  set (keys := y_keys y) in *.
  assert (Lk2 : length keys = length dms) by exact (Forall2_len _ _ _ NG).
  assert (En0 : n0 = len keys) by (unfold n0, keys; now rewrite (nb_count y Ny)).
  assert (Kn : len keys <= glyph_count F).
  { assert (X : (length keys <= length (range 0 (Z.to_nat (glyph_count F))))%nat); [|rewrite range_len in X; lia].
    apply NoDup_incl_length; [apply (nb_nodup y Ny)|]. intros g Hg. apply in_range. apply KB in Hg. lia. }
  assert (Kpos : 0 < len keys). { destruct keys; [discriminate|cbn [length]; lia]. }
  pose proof (P_in f F h locs Dx0 Dx1 Dx2 Ex SG Hlocs) as PI. cbn zeta in PI.
  assert (PH : exists hn, placed f "hmtx" (t_pos h) hn /\ t_pos h <= t_pos h + 4 * (long_metrics F - 1) + 2 /\ t_pos h + 4 * (long_metrics F - 1) + 2 + 2 <= t_pos h + hn) by (exists (t_size h); split; [exact Px|exact PI]).
  pose proof SB as (SB1 & SB2 & SB3).
  (* changed tables *)
  destruct (patched f (g_file s) dir _ (t_pos h) "head" _ 50 format head0 head1 Hf SB Sep Hdir PH ltac:(discriminate) ltac:(lia) Thead H1 H2) as (hb & -> & _ & HB1 & HB2 & HB3).
  destruct (patched f (g_file s) dir _ (t_pos h) "hhea" _ 34 n0 hhea0 hhea1 Hf SB Sep Hdir PH ltac:(discriminate) ltac:(lia) Thhea H4 H5) as (eb & -> & _ & EB1 & EB2 & EB3).
  destruct (patched f (g_file s) dir _ (t_pos h) "maxp" _ 4 n0 maxp0 maxp1 Hf SB Sep Hdir PH ltac:(discriminate) ltac:(lia) Tmaxp H7 H8) as (mb & -> & _ & MB1 & MB2 & MB3).
  apply out_table_ret in H6; [|discriminate]. apply out_table_ret in H9; [|discriminate]. subst hhea2 maxp2.
  unfold out_table in H3. obr H3. rename v into hc. injection H3 as <-. unfold clear_head in E. rewrite beqb_refl in E.
  assert (HC : changed_only 8 11 hb hc). { apply splice_byte in E as (L & X & _). split; [exact L|]. intros q Hq Hr. apply X; [exact Hq|]. cbn [length]. lia. }
  assert (HCB : Forall is_byte hc).
  { apply splice_ret in E as (_ & _ & ->). rewrite <- (firstn_skipn (Z.to_nat 8) hb) in HB3. apply Forall_app in HB3 as [X1 X2]. apply Forall_app. split; [exact X1|]. apply Forall_app. split; [repeat constructor; unfold is_byte; lia|].
    rewrite <- skipn_skipn'. rewrite <- (firstn_skipn 4 (skipn (Z.to_nat 8) hb)) in X2. now apply Forall_app in X2. }
  assert (HL : 52 <= len hc). { destruct HC as [HC _]. destruct HB2 as [HB2 _]. rewrite Eh, extract_len in HB2 by lia. lia. }
  (* the tables *)
  set (tables := concat copied ++ _) in Hasm.
  destruct (copied_ret (g_file s) dir ["name"; "cvt "; "fpgm"; "prep"; "gasp"; "OS/2"]%string copied SB2 ltac:(repeat constructor; cbn; discriminate || reflexivity) ltac:(repeat constructor; cbn; intuition discriminate) Hcopied) as (C1 & C2 & C3 & C4 & C5).
  assert (DMB : Forall (fun dm : bytes * bytes => Forall is_byte (fst dm) /\ Forall is_byte (snd dm) /\ len (snd dm) = 4 /\ len (fst dm) mod 4 = 0) dms).
  { apply Forall_forall. intros x Hx. apply In_nth_error in Hx as (k & Hk). destruct (Forall2_nth' _ _ _ NG _ _ Hk) as (g & _ & (_ & _ & Q1 & Q2 & Q3 & Q4 & _)). auto. }
  assert (LB : exists o0, nth_error (g_offsets s ++ [g_pos s]) 0 = Some o0) by (rewrite OF; destruct dms; cbn; eauto).
  assert (LA : forall i x, nth_error (g_offsets s ++ [g_pos s]) i = Some x -> 0 <= x <= g_pos s /\ x mod 4 = 0).
  { intros i x Hx. rewrite OF in Hx. assert (M4 : Forall (fun o => o mod 4 = 0) (offs 0 (map fst dms))).
    { apply offs_mod; [reflexivity|]. apply Forall_map. eapply Forall_impl; [|exact DMB]. intros dmx (_ & _ & _ & X). exact X. }
    split; [|rewrite Forall_forall in M4; apply M4; eapply nth_error_In, Hx].
    assert (Hi : (i < length (offs 0 (map fst dms)))%nat) by (apply nth_error_Some; congruence). rewrite offs_len in Hi. rewrite offs_nth in Hx by lia. injection Hx as <-.
    rewrite PS. pose proof (concat_prefix_le (map fst dms) i). lia. }
  assert (LCB : Forall is_byte loca).
  { unfold cut_loca in Hloca. destruct (_ <? _); injection Hloca as <- <-; apply flat_map_bytes; intros; [apply pack32_bytes|apply pack16_bytes]. }
  assert (TN : NoDup (map fst tables)).
  { unfold tables. rewrite map_app. apply NoDup_app_; [exact C1|cbn; repeat constructor; cbn; intuition discriminate|].
    intros x X1 X2. apply C2 in X1. clear -X1 X2. cbn in X1, X2. repeat (destruct X1 as [<-|X1]; [intuition discriminate|]). exact X1. }
  assert (TF : Forall (fun t : bytes * bytes => length (fst t) = 4%nat /\ Forall is_byte (snd t)) tables).
  { unfold tables. apply Forall_app. split; [exact C3|]. cbn [app].
    assert (PB : Forall is_byte post) by (eapply cut_post_bytes; [|exact Hpost]; intros t ->; exact (table_data_bytes f dir "post" t Hf Hpost0)).
    pose proof (cmap_table_bytes _ _ _ Hcmap) as CMB.
    assert (GB : Forall is_byte (g_glyf s)) by (rewrite GF; apply concat_bytes, Forall_map; eapply Forall_impl; [|exact DMB]; intros dmx (X & _); exact X).
    assert (HMB : Forall is_byte (g_hmtx s)) by (rewrite HM; apply concat_bytes, Forall_map; eapply Forall_impl; [|exact DMB]; intros dmx (_ & X & _); exact X).
    repeat (constructor; [split; [reflexivity|assumption]|]). constructor. }
  assert (TI : In (bs "head", hc) tables) by (unfold tables; apply in_or_app; right; cbn; tauto).
  destruct (assembled tables hc font TN TF TI ltac:(lia)) as [TT (adj & La & TH)]; [unfold tables; rewrite app_length; cbn [length app] in *; lia|exact Hasm|exact Lf|].
  set (head' := firstn 8 hc ++ adj ++ skipn 12 hc) in *.
  assert (HH : changed_only 8 11 hc head') by (apply byte_overwrite8; [exact La|lia]).

  set (G := {| F_head := head'; F_maxp := mb; F_hhea := eb; F_hmtx := g_hmtx s; F_loca := loca; F_glyf := g_glyf s |}).
  assert (Sub : forall name data, bs name <> bs "head" -> In (bs name, data) tables -> table_in font name data) by exact TT.
  assert (Gg : table_in font "glyf" (g_glyf s)) by (apply TT; [discriminate|unfold tables; apply in_or_app; right; cbn; tauto]).
  assert (Gl : table_in font "loca" loca) by (apply TT; [discriminate|unfold tables; apply in_or_app; right; cbn; tauto]).
  assert (Gx : table_in font "hmtx" (g_hmtx s)) by (apply TT; [discriminate|unfold tables; apply in_or_app; right; cbn; tauto]).
  assert (Gm : table_in font "maxp" mb) by (apply TT; [discriminate|unfold tables; apply in_or_app; right; cbn; tauto]).
  assert (Ge : table_in font "hhea" eb) by (apply TT; [discriminate|unfold tables; apply in_or_app; right; cbn; tauto]).
  assert (Gc : table_in font "cmap" cmap) by (apply TT; [discriminate|unfold tables; apply in_or_app; right; cbn; tauto]).
  pose proof (table_in_len _ _ _ Gg) as Lg. rewrite GF in Lg.
  assert (Hset : forall g i, index_of (y_set y) g = Some i <-> 0 <= i /\ nth_error keys (Z.to_nat i) = Some g) by exact (nb_index y Ny).
  assert (Hnew : forall i g, 0 <= i -> nth_error keys (Z.to_nat i) = Some g -> new_number (y_set y) g = i).
  { intros i g Hi Hn. unfold new_number. assert (X : index_of (y_set y) g = Some i) by (apply Hset; auto). now rewrite X. }
  assert (N0 : new_number (y_set y) 0 = 0) by (apply Hnew; [lia|exact K0]).
  assert (Hfound : forall ch g, In (ch, g) (found_pairs dict used) <-> In ch used /\ char_symbol dict ch = Some g) by (intros; apply found_in).
  assert (Hrune : forall ch i, In (ch, i) runes <-> In ch used /\ exists g, char_symbol dict ch = Some g /\ i = new_number (y_set y) g).
  { intros ch i. rewrite Ri. split.
    - intros (g & Hi & Hi0 & Hn). apply Hfound in Hi as [Hu Hc]. split; [exact Hu|]. exists g. split; [exact Hc|]. symmetry. now apply Hnew.
    - intros (Hu & g & Hc & ->). exists g. split; [now apply Hfound|].
      assert (Hg : In g keys). { apply KR. exists g. split; [|constructor]. right. apply in_map_iff. exists (ch, g). split; [reflexivity|now apply Hfound]. }
      apply In_nth_error in Hg as (k & Hk). rewrite (Hnew (Z.of_nat k) g) by (rewrite ?Nat2Z.id; auto; lia). rewrite Nat2Z.id. split; [lia|exact Hk]. }
  assert (Hrs : forall ch i, In (ch, i) rs <-> ch <> 0 /\ In ch used /\ exists g, char_symbol dict ch = Some g /\ i = new_number (y_set y) g).
  { intros ch i. unfold rs. rewrite filter_In, Hrune. cbn [fst]. rewrite negb_true_iff, Z.eqb_neq. tauto. }
  assert (Hran : forall ch i, In (ch, i) runes -> 0 <= ch <= 65535 /\ 0 <= i <= 65535).
  { intros ch i Hi. pose proof Hi as Hi2. apply Hrune in Hi as (_ & g & Hc & ->). apply Hdom in Hc as (R1 & _ & _). split; [exact R1|].
    apply Ri in Hi2 as (g' & _ & Hi0 & Hn). assert (X : (Z.to_nat (new_number (y_set y) g) < length keys)%nat) by (apply nth_error_Some; congruence). lia. }
  assert (Hmap : forall ch, 1 <= ch <= 65535 -> cmap_glyph cmap ch = Some (if existsb (Z.eqb ch) used then new_number (y_set y) (char_glyph cm o ch) else 0)).
  { intros ch Hch. destruct (found_nodup dict used) as [FN FL].
    assert (LR : length runes = length (found_pairs dict used)) by (rewrite <- (map_length fst runes), Rf; apply map_length).
    assert (FR : (length rs <= length runes)%nat) by (unfold rs; clear; induction runes as [|a l IH]; cbn [filter length]; [lia|]; destruct (negb _); cbn [length]; lia).
    destruct (C40_character_map rs n0) as (tb & Tb & Tc).
    - unfold rs. rewrite <- Rf in FN. clear -FN. induction runes as [|a l IH]; [constructor|]. cbn [map] in FN. inversion FN as [|? ? F1 F2]; subst. cbn [filter]. destruct (negb _); [|auto]. cbn [map].
      constructor; [|auto]. intros X. apply F1. apply in_map_iff in X as (z & Hz & Hi). apply filter_In in Hi as [Hi _]. apply in_map_iff. eauto.
    - apply Forall_forall. intros [a b] Hi. apply filter_In in Hi as [Hi _]. exact (Hran a b Hi).
    - lia.
    - rewrite Hcmap in Tb. injection Tb as <-. destruct (Tc ch ltac:(lia)) as [T1 T2]. destruct (existsb (Z.eqb ch) used) eqn:Eu.
      + apply existsb_exists in Eu as (x & Hx & Ex2). apply Z.eqb_eq in Ex2. subst x. destruct (char_symbol dict ch) as [g|] eqn:Ecs.
        * apply T1. apply Hrs. split; [lia|]. split; [exact Hx|]. exists g. split; [exact Ecs|]. apply Hdom in Ecs as (_ & _ & ->). reflexivity.
        * rewrite (Hnone ch Ecs), N0. apply T2. intros g Hi. apply Hrs in Hi as (_ & _ & g' & X & _). congruence.
      + apply T2. intros g Hi. apply Hrs in Hi as (_ & Hx & _). assert (X : existsb (Z.eqb ch) used = true) by (apply existsb_exists; exists ch; split; [exact Hx|apply Z.eqb_refl]). congruence. }
  assert (Fmt : u16 head' 50 = format mod 65536) by (rewrite (changed_u16 _ _ _ _ 50 HH), (changed_u16 _ _ _ _ 50 HC) by lia; exact HB1).
  exists keys, (y_set y), dms, G, cmap. constructor; cbn [c_font c_runes c_last c_file].
  - apply (nb_nodup y Ny).
  - exact K0.
  - exact Hset.
  - intros g. rewrite (needed_reach f F gl locs Hf Dg0 Dg1 Dg2 Eg SG Hlocs (fun g _ => L0 g) (0 :: map snd (found_pairs dict used)) keys KB KR g).
    assert (NE : forall l l', (forall x, In x l -> In x l') -> forall g, needed F l g -> needed F l' g) by (intros l l' Hl g' Hn; induction Hn; [apply need_self; auto|eapply need_part; eauto]).
    split; apply NE; intros x [<-|Hx]; try (now left).
    + apply in_map_iff in Hx as ([ch g'] & <- & Hi). apply Hfound in Hi as [Hu Hc]. apply Hdom in Hc as (_ & _ & ->). right. cbn [snd]. now apply in_map.
    + apply in_map_iff in Hx as (ch & <- & Hu). destruct (char_symbol dict ch) as [g'|] eqn:Ecs; [|rewrite (Hnone ch Ecs); now left].
      right. apply in_map_iff. exists (ch, g'). split; [|now apply Hfound]. cbn [snd]. now apply Hdom in Ecs as (_ & _ & ->).
  - exact NG.
  - intros X. now apply BR.
  - exact UF.
  - split; [exact TH|]. split; [exact Gm|]. split; [exact Ge|]. split; [exact Gx|]. split; [exact Gl|exact Gg].
  - exact Gc.
  - exact GF.
  - exact HM.
  - intros i Hi. assert (Hi' : (i < length (offs 0 (map fst dms)))%nat) by (rewrite offs_len, map_length; lia).
    destruct (nth_error (offs 0 (map fst dms)) i) as [x|] eqn:Ei; [|apply nth_error_None in Ei; lia]. rewrite <- OF in Ei. destruct (LA _ _ Ei) as [A1 A2].
    destruct (cut_loca_at _ _ _ _ i x Hloca Ei A1 A2 ltac:(lia)) as (A3 & _ & A4). unfold loca_at, G. cbn [F_head F_loca]. rewrite Fmt, <- A4. f_equal.
    destruct A3 as [-> | ->]; reflexivity.
  - unfold glyph_count, G. cbn [F_maxp]. rewrite MB1, En0, Z.mod_small by lia. reflexivity.
  - unfold long_metrics, G. cbn [F_hhea]. rewrite EB1, En0, Z.mod_small by lia. reflexivity.
  - exact Hmap.
  - intros ch i Hi. apply Hrs in Hi as (Hn0 & Hu & g & Hc & ->). apply Hdom in Hc as (R1 & _ & ->). split; [exact Hu|]. split; [lia|reflexivity].
  - intros ch Hu H1' Hg. apply Hrs. split; [lia|]. split; [exact Hu|]. destruct (char_symbol dict ch) as [g|] eqn:Ecs; [|now apply Hnone in Ecs]. exists g. split; [reflexivity|]. now apply Hdom in Ecs as (_ & _ & ->).
  - unfold parse_symbols in Hps. obr Hps. obr Hps. injection Hps as _ _ <-. apply Forall_forall. apply fold_max_ge.
  - exists hb. split; [exact HB2|]. unfold G. cbn [F_head]. eapply changed_trans; [exact HC|exact HH].
  - exact EB2.
  - exact MB2.
  - intros name data Hin Tn Hd. destruct (find_desc_in f dir name data Hf Hdir Tn) as (dn & D1 & D2 & D3 & D4 & D5 & ->).
    assert (Hne : bs name <> bs "head" /\ bs name <> bs "hmtx") by (cbn in Hin; repeat (destruct Hin as [<-|Hin]; [split; discriminate|]); destruct Hin).
    apply TT; [apply Hne|]. unfold tables. apply in_or_app. left. apply C5; [exact Hin|]. unfold table_data. rewrite D1. destruct (t_size dn =? 0) eqn:Ez.
    { exfalso. apply Hd. apply Z.eqb_eq in Ez. rewrite Ez. reflexivity. }
    rewrite rd_ok by lia. cbn [obind]. rewrite (extract_same _ f _ _ _ SB) by (pose proof (placed_apart f name "hmtx" _ _ _ _ Sep (proj2 Hne) D2 Px); lia). reflexivity.
  - exists (t_pos h), (t_size h). split; [exact Px|exact SB].
Qed.

(** The font made for the characters [used] has the glyphs needed to draw them, each once, the glyph for unknown
    characters first; glyph [i] of the new font is glyph [g] of the font, drawn from the same data and with the same
    advance width; the new character map leads from a used character to its glyph and from any other to glyph 0;
    all other tables that are kept, and the fields of the changed ones, are those of the font. *)
Theorem C64_subset_font : forall fuel (f : bytes) (used : list Z) (c : cut) (F : font) (cm : bytes) (o : Z),
  cut_font fuel f used = Ret (Some c) -> Forall is_byte f -> font_in f F -> table_in f "cmap" cm ->
  sound_glyphs F -> sound_map cm o -> separate_tables f -> len used < 32767 -> len (c_font c) < 2 ^ 32 ->
  exists (keys : list Z) (ren : Z -> Z) (G : font) (cm' : bytes),
    font_in (c_font c) G /\ table_in (c_font c) "cmap" cm' /\
    NoDup keys /\ nth_error keys 0 = Some 0 /\ glyph_count G = len keys /\
    (forall g, In g keys <-> needed F (0 :: map (char_glyph cm o) used) g) /\
    (forall i g, nth_error keys i = Some g -> ren g = Z.of_nat i /\ advance G (Z.of_nat i) = advance F g /\ redrawn ren (glyph F g) (glyph G (Z.of_nat i))) /\
    (forall ch, 1 <= ch <= 65535 -> cmap_glyph cm' ch = Some (if existsb (Z.eqb ch) used then ren (char_glyph cm o ch) else 0)) /\
    (forall ch i, In (ch, i) (c_runes c) -> In ch used /\ i = ren (char_glyph cm o ch)) /\
    (forall ch, In ch used -> 1 <= ch -> char_glyph cm o ch <> 0 -> In (ch, ren (char_glyph cm o ch)) (c_runes c)) /\
    (exists h1, changed_only 50 51 (F_head F) h1 /\ changed_only 8 11 h1 (F_head G)) /\
    changed_only 34 35 (F_hhea F) (F_hhea G) /\ changed_only 4 5 (F_maxp F) (F_maxp G) /\
    (forall name data, In name ["name"; "cvt "; "fpgm"; "prep"; "gasp"; "OS/2"]%string -> table_in f name data -> data <> [] -> table_in (c_font c) name data).
Proof.
  intros fuel f used c F cm o H Hf HF Hc SG SM Sep Lu Lf. destruct (cut_font_ret fuel f used c F cm o H Hf HF Hc SG SM Sep Lu Lf) as (keys & set & dms & G & cm' & R).
  assert (Hren : forall i g, nth_error keys i = Some g -> new_number set g = Z.of_nat i).
  { intros i g Hi. unfold new_number. assert (X : index_of set g = Some (Z.of_nat i)) by (apply (cr_set _ _ _ _ _ _ _ _ _ _ _ R); split; [lia|now rewrite Nat2Z.id]). now rewrite X. }
  assert (Hgc : glyph_count F < 65536 /\ len keys <= glyph_count F).
  { destruct HF as (_ & Tm & _). assert (B : Forall is_byte (F_maxp F)) by (destruct Tm as (i & _ & _ & <- & _); now apply extract_bytes). split; [apply (u16_range _ 4 B)|].
    pose proof (u16_range _ 4 B) as U. fold (glyph_count F) in U.
    assert (X : (length keys <= length (range 0 (Z.to_nat (glyph_count F))))%nat); [|rewrite range_len in X; lia]. apply NoDup_incl_length; [apply R|]. intros g Hg.
    apply In_nth_error in Hg as (k & Hk). destruct (Forall2_nth _ _ _ (cr_glyphs _ _ _ _ _ _ _ _ _ _ _ R) _ _ Hk) as (dm & _ & (B1 & _)). apply in_range. lia. }
  exists keys, (new_number set), G, cm'. split; [apply R|]. split; [apply R|]. split; [apply R|]. split; [apply R|]. split; [apply R|]. split; [apply R|].
  split; [|split; [exact (cr_map _ _ _ _ _ _ _ _ _ _ _ R)|split; [|split; [exact (cr_runes' _ _ _ _ _ _ _ _ _ _ _ R)|split; [exact (cr_head _ _ _ _ _ _ _ _ _ _ _ R)|split; [apply R|split; [apply R|exact (cr_copied _ _ _ _ _ _ _ _ _ _ _ R)]]]]]]].
  - intros i g Hi. split; [auto|]. destruct (Forall2_nth _ _ _ (cr_glyphs _ _ _ _ _ _ _ _ _ _ _ R) _ _ Hi) as ([d m] & Hd & (B & (body & k & Ed & Hk & Lb & N1 & N2) & M4 & _ & Lm & _ & A & _)). cbn [fst snd] in *.
    assert (Li : (i < length keys)%nat) by (apply nth_error_Some; congruence).
    assert (Lk : length keys = length dms) by exact (Forall2_len _ _ _ (cr_glyphs _ _ _ _ _ _ _ _ _ _ _ R)).
    split.
    + unfold advance at 1. rewrite (cr_long _ _ _ _ _ _ _ _ _ _ _ R), (cr_hmtx _ _ _ _ _ _ _ _ _ _ _ R). replace (Z.of_nat i <? len keys) with true by lia.
      rewrite <- A. rewrite <- (Z.add_0_r (4 * Z.of_nat i)). apply concat_u16; [|exact (map_nth_error snd _ _ Hd)|lia|lia].
      apply Forall_map, Forall_forall. intros x Hx. apply In_nth_error in Hx as (j & Hj). destruct (Forall2_nth' _ _ _ (cr_glyphs _ _ _ _ _ _ _ _ _ _ _ R) _ _ Hj) as (g' & _ & (_ & _ & _ & _ & X & _)). exact X.
    + pose proof (cr_loca _ _ _ _ _ _ _ _ _ _ _ R i ltac:(lia)) as O1. pose proof (cr_loca _ _ _ _ _ _ _ _ _ _ _ R (S i) ltac:(lia)) as O2.
      assert (Hd' : nth_error (map fst dms) i = Some d) by exact (map_nth_error fst _ _ Hd).
      assert (Ld : length (map fst dms) = length dms) by apply map_length. rewrite offs_nth in O1, O2 by (rewrite Ld; lia).
      assert (Q1 : 0 + len (concat (firstn i (map fst dms))) = loca_at G (Z.of_nat i)) by congruence. assert (Q2 : 0 + len (concat (firstn (S i) (map fst dms))) = loca_at G (Z.of_nat (S i))) by congruence.
      clear O1 O2. rename Q1 into O1, Q2 into O2. rewrite (firstn_S_concat _ _ _ Hd'), app_length in O2. rewrite Nat2Z.inj_succ in O2.
      assert (GE : glyph G (Z.of_nat i) = d).
      { unfold glyph. rewrite (cr_glyf _ _ _ _ _ _ _ _ _ _ _ R), (concat_split _ _ _ Hd'). unfold Z.succ in O2. rewrite <- O2, <- O1.
        match goal with |- extract (?a ++ d ++ ?b) ?p ?q = d => replace q with (len d) by lia; replace p with (len a) by lia end. apply extract_app. }
      rewrite GE, Ed. exists body, k. split; [reflexivity|]. split; [exact Hk|]. split; [exact Lb|]. split; [exact N1|]. intros Cp. destruct (N2 Cp) as (fields & C1 & C2 & C3). exists fields. split; [exact C1|]. split; [|exact C3].
      intros p Hp. rewrite (C2 p Hp). apply Z.mod_small.
      assert (Hin : In (u16 (glyph F g) p) keys).
      { apply (cr_needed _ _ _ _ _ _ _ _ _ _ _ R). eapply need_part; [apply (cr_needed _ _ _ _ _ _ _ _ _ _ _ R); eapply nth_error_In, Hi|]. split; [exact Cp|]. exists fields, p. auto. }
      apply In_nth_error in Hin as (j & Hj). rewrite (Hren _ _ Hj). assert ((j < length keys)%nat) by (apply nth_error_Some; congruence). lia.
  - intros ch i Hi. apply (cr_runes _ _ _ _ _ _ _ _ _ _ _ R) in Hi as (X & _ & Y). auto.
Qed.
Print Assumptions C64_subset_font.
