(** C66: a font is cut down to the characters in use without a crash. *)
From Verif Require Import Base DocModel DocSort TtfSpec TtfModel TtfProofs TtfProps TtfCmap CutSpec CutModel CutProofs CutClosure CutRead CutGlyphs CutSymbols CutCmap CutOut CutMain CutProps CutExample CutTotal.
From Coq Require Import String Permutation.
Open Scope Z_scope.
Notation length := List.length.
Notation concat := List.concat.

(** the directory and all tables are inside the file, there is a table post, the character map leads to glyphs of
    the font, and the glyphs needed are made of glyphs of the font *)
Record complete_font (f : bytes) (F : font) (cm : bytes) (o : Z) (used : list Z) : Prop := {
  cf_directory : 12 + 16 * num_tables f <= len f;
  cf_inside : forall i, 0 <= i < num_tables f -> 12 <= toff f i /\ toff f i + tlen f i <= len f;
  cf_post : exists post, table_in f "post" post /\ 16 <= len post;
  cf_chars : forall ch, In ch used -> char_glyph cm o ch < glyph_count F;
  cf_parts : forall g, needed F (0 :: map (char_glyph cm o) used) g -> composite (glyph F g) = true -> exists fields, components (glyph F g) 10 fields;
  cf_glyphs : forall g h, needed F (0 :: map (char_glyph cm o) used) g -> uses F g h -> h < glyph_count F }.
(** no glyph is made of itself, directly or through others *)
Definition no_circles (F : font) : Prop := exists rank : Z -> nat, forall g h, uses F g h -> (rank h < rank g)%nat.

Lemma char_glyph_pos f p n o : Forall is_byte f -> forall ch, 0 <= char_glyph (extract f p n) o ch.
Proof.
  intros Hf ch. assert (B : Forall is_byte (extract f p n)) by now apply extract_bytes. unfold char_glyph, lookup4. destruct (_ && _); [|lia]. destruct (find_segment _ _ _ _ _) as [i|]; [|lia]. destruct (ch <? _); [lia|].
  destruct (_ =? 0); [apply Z.mod_pos_bound; lia|]. match goal with |- context [u16 _ ?q =? 0] => destruct (u16 (extract f p n) q =? 0) end; [lia|apply Z.mod_pos_bound; lia].
Qed.

Theorem C66_cut_partial : forall (f : bytes) (used : list Z) (F : font) (cm : bytes) (o : Z),
  Forall is_byte f -> font_in f F -> table_in f "cmap" cm -> sound_glyphs F -> sound_map cm o -> separate_tables f -> complete_font f F cm o used -> no_circles F ->
  exists k, forall fuel, (k <= fuel)%nat -> exists c, cut_font fuel f used = Ret (Some c).
Proof.
  intros f used F cm o Hf (Thead & Tmaxp & Thhea & Thmtx & Tloca & Tglyf) Tcm SG SM Sep CF (rank & HR).
  destruct (read_dir_ok f Hf (cf_directory _ _ _ _ _ CF)) as (dir & Hdir).
  destruct (find_desc_in f dir _ _ Hf Hdir Thead) as (dh & Dh & Ph & Dh0 & Dh1 & Dh2 & Eh).
  destruct (find_desc_in f dir _ _ Hf Hdir Tmaxp) as (dm & Dm & Pm & Dm0 & Dm1 & Dm2 & Em).
  destruct (find_desc_in f dir _ _ Hf Hdir Thhea) as (de & De & Pe & De0 & De1 & De2 & Ee).
  destruct (find_desc_in f dir _ _ Hf Hdir Thmtx) as (h & Dx & Px & Dx0 & Dx1 & Dx2 & Ex).
  destruct (find_desc_in f dir _ _ Hf Hdir Tloca) as (dl & Dl & Pl & Dl0 & Dl1 & Dl2 & El).
  destruct (find_desc_in f dir _ _ Hf Hdir Tglyf) as (gl & Dg & Pg & Dg0 & Dg1 & Dg2 & Eg).
  destruct (find_desc_in f dir _ _ Hf Hdir Tcm) as (dc & Dc & Pc & Dc0 & Dc1 & Dc2 & Ec).
  destruct (cf_post _ _ _ _ _ CF) as (post & Tpost & Lpost). destruct (find_desc_in f dir _ _ Hf Hdir Tpost) as (dp & Dp & Pp & Dp0 & Dp1 & Dp2 & Ep).
  destruct (sg_tables F SG) as (TL1 & TL2 & TL3). pose proof (sg_long F SG) as Lg. pose proof (sg_hmtx F SG) as Lh.
  assert (Th := TL1). rewrite Eh in Th. assert (Te := TL2). rewrite Ee in Te. assert (Tm := TL3). rewrite Em in Tm. rewrite Ex in Lh. rewrite extract_len in Th, Te, Tm, Lh by lia.
  assert (Efmt : u16 f (t_pos dh + 50) = u16 (F_head F) 50) by (rewrite Eh, u16_extract by lia; reflexivity).
  assert (Ecnt : u16 f (t_pos de + 34) = long_metrics F) by (unfold long_metrics; rewrite Ee, u16_extract by lia; reflexivity).
  assert (Enum : u16 f (t_pos dm + 4) = glyph_count F) by (unfold glyph_count; rewrite Em, u16_extract by lia; reflexivity).
  assert (Hgc : 0 <= glyph_count F < 65536) by (rewrite <- Enum; now apply u16_range).
  assert (L0 : forall g, 0 <= loca_at F g) by (apply (loca_nonneg f F Hf); eauto).
  (* the character map *)
  assert (CL : len cm = t_size dc) by (rewrite Ec; apply extract_len; lia). assert (CB : Forall is_byte cm) by (rewrite Ec; now apply extract_bytes).
  pose proof (sm_records cm o SM) as Rc. pose proof (u16_range cm 2 CB) as U2.
  assert (Pos : 0 < t_pos dc). { destruct Pc as (i & Hi & _ & <- & _). pose proof (cf_inside _ _ _ _ _ CF i Hi). lia. }
  assert (Ho : 0 <= o). { assert (X : forall k q o', find_unicode cm k q = Some o' -> 0 <= o'). { induction k as [|k IH]; intros q o' X; [discriminate|]. cbn [find_unicode] in X. destruct (_ && _); [injection X as <-; apply (u32_range cm _ CB)|eauto]. } exact (X _ _ _ (sm_found cm o SM)). }
  assert (Hcp : cmap_position f dir = Ret (Some (t_pos dc + o))).
  { unfold cmap_position. rewrite (seek_some _ _ _ Dc). cbn [obind]. rewrite rd16_ok by lia. cbn [obind]. rewrite <- (u16_extract f (t_pos dc) (t_size dc) 2), <- Ec by lia.
    apply (find_cmap_ok f (t_pos dc) (t_size dc) Hf Pos Dc1 Dc2); [lia|lia| |].
    - rewrite <- Ec, <- CL. intros i Hi. apply (sm_inside cm o SM). lia.
    - rewrite <- Ec. exact (sm_found cm o SM). }
  assert (SM' := SM). rewrite Ec in SM'. destruct (char_symbols_ok f (t_pos dc) (t_size dc) o Hf Dc0 Dc1 Dc2 Ho SM') as (dict & Hdict).
  pose proof (dict_lookup f (t_pos dc) (t_size dc) o dict Hf Dc0 Dc1 Dc2 Ho SM' Hdict) as Lk. cbn zeta in Lk. rewrite <- Ec in Lk.
  pose proof (char_symbols_range f _ dict Hf Hdict) as DR.
  assert (Hdom : forall ch g, char_symbol dict ch = Some g -> 0 <= ch <= 65535 /\ 0 <= g <= 65535 /\ g = char_glyph cm o ch).
  { intros ch g Hs. assert (R : 0 <= ch <= 65535 /\ 0 <= g <= 65535).
    { unfold char_symbol in Hs. destruct (find _ (rev dict)) as [[c' g']|] eqn:Ef; [|discriminate]. cbn in Hs. injection Hs as ->. apply find_some in Ef as [E1 E2]. cbn in E2. apply Z.eqb_eq in E2. subst c'.
      rewrite <- in_rev in E1. rewrite Forall_forall in DR. exact (DR _ E1). }
    split; [lia|]. split; [lia|]. specialize (Lk ch (proj1 R)). rewrite Hs in Lk. unfold char_glyph. replace ((0 <=? ch) && (ch <=? 65535)) with true by lia. now symmetry. }
  destruct (parse_loca_ok f dir dl F Dl El Dl0 Dl1 Dl2 SG ltac:(lia)) as (locs & Hlocs0). pose proof (parse_loca_ret f dir dl F locs Dl El Dl0 Dl1 Dl2 SG ltac:(lia) Hlocs0) as Hlocs.
  (* the glyphs *)
  set (l := 0 :: map (char_glyph cm o) used). 
  assert (HB : forall g, needed F l g -> 0 <= g < glyph_count F).
  { intros g N. induction N as [g Hi|g h' N IH U].
    - destruct Hi as [<-|Hi]; [lia|]. apply in_map_iff in Hi as (ch & <- & Hi). split; [rewrite Ec; apply (char_glyph_pos f _ _ o Hf)|exact (cf_chars _ _ _ _ _ CF ch Hi)].
    - split; [|exact (cf_glyphs _ _ _ _ _ CF g h' N U)]. destruct U as (_ & fields & p & _ & _ & <-). apply u16_range. apply extract_bytes. rewrite Eg. now apply extract_bytes. }
  pose proof (cf_parts _ _ _ _ _ CF) as HC. fold l in HC.
  pose proof (get_symbols_ok f F gl locs Hf Dg0 Dg1 Dg2 Eg SG Hlocs (fun g _ => L0 g) l rank HB HC (fun g h' _ U => HR g h' U)) as GS.
  assert (Hroots : forall g, In g (zsort (dedup (0 :: map snd (found_pairs dict used)))) -> needed F l g).
  { intros g Hi. apply (Permutation_in _ (sort_by_perm _ _)) in Hi. apply (proj1 (dedup_in _ _)) in Hi. apply need_self. destruct Hi as [<-|Hi]; [now left|]. right. apply in_map_iff in Hi as ([ch g'] & <- & Hi). apply found_in in Hi as [Hu Hc].
    apply Hdom in Hc as (_ & _ & ->). cbn [snd]; now apply in_map. }
  destruct (get_all_ok f F gl locs Hlocs (fun g _ => L0 g) _ (fun g Hi => GS g (Hroots g Hi))) as (k & Hk). exists k. intros fuel Hfuel.
  assert (GA := fun y => Hk fuel y Hfuel). clear Hk.
  enough (G : exists c, cut_font fuel f used = Ret c /\ c <> None) by (destruct G as ([c|] & G & N); [eauto|congruence]).
  unfold cut_font. rewrite Hdir. cbn [obind]. rewrite (seek_some _ _ _ Dh), (seek_some _ _ _ De), (seek_some _ _ _ Dm). cbn [obind]. rewrite (rd16_ok f (t_pos dh + 50)), (rd16_ok f (t_pos de + 34)), (rd16_ok f (t_pos dm + 4)) by lia. cbn [obind].
  rewrite Hcp. cbn [obind]. rewrite Hdict. cbn [obind]. rewrite (seek_some _ _ _ Dx). cbn [obind]. rewrite Ecnt, Efmt, Enum. rewrite (rd_ok f (t_pos h)) by lia. cbn [obind]. rewrite Hlocs0. cbn [obind].
  assert (PS : ok (parse_symbols fuel f dir locs dict used)).
  { unfold parse_symbols. rewrite (seek_some _ _ _ Dg). cbn [obind]. apply ok_bind; [apply GA|]. intros; apply ok_ret. }
  destruct PS as ([[runes y] last] & Hps). rewrite Hps. cbn [obind].
  destruct (parse_symbols_ret fuel f dir gl locs dict used runes y last Hf Dg) as (Ny & K0 & KR & Rf & Ri); [eapply Forall_impl; [|exact DR]; intros ? [_ ?]; lia|exact Hps|].
  assert (KN : forall g, In g (y_keys y) -> needed F l g).
  { intros g Hg. apply KR in Hg as (g0 & Hi & Hre). apply (reach_needed f F gl locs Hf Dg0 Dg1 Dg2 Eg SG Hlocs (fun g _ => L0 g) l g0 g HB HC Hre). apply Hroots. apply (Permutation_in _ (Permutation_sym (sort_by_perm _ _))). apply dedup_in. exact Hi. }
  assert (Tp : table_data f dir "post" = Ret (Some post)).
  { unfold table_data. rewrite Dp. assert (t_size dp = len post) by (rewrite Ep, extract_len by lia; reflexivity). replace (t_size dp =? 0) with false by lia. rewrite rd_ok by lia. cbn [obind]. now rewrite <- Ep. }
  rewrite Tp. cbn [obind]. unfold cut_post. destruct (slice_ok post 4 16 ltac:(lia) ltac:(lia) ltac:(lia)) as (m & ->). cbn [obind].
  set (rs := filter _ runes). set (n0 := Z.of_nat (length (y_coll y))).
  assert (CT : ok (cmap_table rs n0)).
  { destruct (found_nodup dict used) as [FN _]. rewrite <- Rf in FN.
    destruct (cmap_table_eq rs n0) as (kk & _ & _ & X); [| |rewrite X; apply ok_ret].
    - unfold rs. clear -FN. induction runes as [|a l IH]; [constructor|]. cbn [map] in FN. inversion FN as [|? ? F1 F2]; subst. cbn [filter]. destruct (negb _); [|auto]. cbn [map].
      constructor; [|auto]. intros X. apply F1. apply in_map_iff in X as (z & Hz & Hi). apply filter_In in Hi as [Hi _]. apply in_map_iff. eauto.
    - apply Forall_forall. intros [a b] Hi. apply filter_In in Hi as [Hi _]. cbn [fst]. apply Ri in Hi as (g & Hi & _). apply found_in in Hi as [_ Hc]. apply Hdom in Hc. tauto. }
  destruct CT as (cmap & Hcmap). rewrite Hcmap. cbn [obind]. rewrite (seek_some _ _ _ Dg). cbn [obind].
  assert (Tg : table_data f dir "glyf" = Ret (Some (F_glyf F))).
  { unfold table_data. rewrite Dg. replace (t_size gl =? 0) with false; [rewrite rd_ok by lia; cbn [obind]; now rewrite <- Eg|]. symmetry. apply Z.eqb_neq. intros Z0. apply (sg_glyf F SG). rewrite Eg, Z0. reflexivity. }
  rewrite Tg. cbn [obind].
  pose proof (placed_apart f "hmtx" "glyf" _ _ _ _ Sep ltac:(discriminate) Px Pg) as Apart.
  set (s0 := {| g_offsets := []; g_glyf := []; g_pos := 0; g_hmtx := []; g_file := f |}).
  assert (S0 : same_but (t_pos h + 4 * (long_metrics F - 1) + 2) f (g_file s0)) by (split; [reflexivity|split; [exact Hf|reflexivity]]).
  destruct (put_glyphs_ok f dir F h gl locs (y_set y) Dx Dx0 Dx1 Dx2 Ex Dg0 Dg1 Dg2 Eg Apart SG Hlocs (fun g _ => L0 g) (y_keys y) s0 S0 eq_refl) as (s & Hput).
  { intros g Hg. split; [apply HB, KN, Hg|apply HC, KN, Hg]. }
  destruct (put_glyphs_ret f dir F h gl locs (y_set y) Dx Dx0 Dx1 Dx2 Ex Dg0 Dg1 Dg2 Eg Apart SG Hlocs (fun g _ => L0 g) (y_keys y) s0 s S0 eq_refl Hput) as (dms & _ & _ & _ & _ & _ & SB & _).
  rewrite Hput. cbn [obind]. destruct (cut_loca _ _) as [format loca]. pose proof SB as (SB1 & SB2 & _).
  assert (Ins : forall i, 0 <= i < num_tables f -> toff f i + tlen f i <= len f) by (intros i Hi; apply (cf_inside _ _ _ _ _ CF i Hi)).
  set (names := ["name"; "cvt "; "fpgm"; "prep"; "gasp"; "OS/2"]%string).
  assert (CO : ok (omap (fun name => obind (table_data (g_file s) dir name) (fun t => out_table name t)) names)).
  { apply omap_ok. intros name Hin. apply ok_bind; [now apply (table_data_ok f)|]. intros t _. unfold out_table. destruct t as [b|]; [|apply ok_ret]. apply ok_bind; [|intros; apply ok_ret].
    unfold clear_head. replace (beqb (bs name) (bs "head")) with false; [apply ok_ret|]. unfold names in Hin. cbn in Hin. repeat (destruct Hin as [<-|Hin]; [reflexivity|]). destruct Hin. }
  destruct CO as (copied & Hcopied). rewrite Hcopied. cbn [obind].
  destruct (copied_ret (g_file s) dir names copied SB2 ltac:(repeat constructor; cbn; discriminate || reflexivity) ltac:(repeat constructor; cbn; intuition discriminate) Hcopied) as (C1 & C2 & C3 & C4 & _).
  assert (TD : forall name d, find_desc dir (bs name) = Some d -> 0 <= t_pos d -> 0 < t_size d -> t_pos d + t_size d <= len f -> exists b, table_data (g_file s) dir name = Ret (Some b) /\ len b = t_size d).
  { intros name d D D0 D1 D2. unfold table_data. rewrite D. replace (t_size d =? 0) with false by lia. rewrite rd_ok by lia. cbn [obind]. eexists. split; [reflexivity|]. apply extract_len; lia. }
  destruct (TD "head"%string dh Dh ltac:(lia) ltac:(lia) ltac:(lia)) as (hb & -> & Lhb). destruct (TD "hhea"%string de De ltac:(lia) ltac:(lia) ltac:(lia)) as (eb & -> & Leb). destruct (TD "maxp"%string dm Dm ltac:(lia) ltac:(lia) ltac:(lia)) as (mb & -> & Lmb). cbn [obind].
  destruct (patch_ok hb 50 format ltac:(lia) ltac:(lia)) as (hb1 & E1). pose proof (patch_ret hb 50 format hb1 E1) as (hb2 & -> & _ & _ & L1 & _). rewrite E1. cbn [obind].
  destruct (patch_ok eb 34 n0 ltac:(lia) ltac:(lia)) as (eb1 & E2). pose proof (patch_ret eb 34 n0 eb1 E2) as (eb2 & -> & _). rewrite E2.
  destruct (patch_ok mb 4 n0 ltac:(lia) ltac:(lia)) as (mb1 & E3). pose proof (patch_ret mb 4 n0 mb1 E3) as (mb2 & -> & _). rewrite E3. cbn [obind].
  assert (Hou : exists hc, out_table "head" (Some hb2) = Ret [(bs "head", hc)] /\ len hc = len hb2).
  { unfold out_table, clear_head. rewrite beqb_refl. destruct (splice_ok hb2 8 [0; 0; 0; 0] ltac:(lia) ltac:(cbn; lia)) as (hc & Es). rewrite Es. exists hc. split; [reflexivity|]. now apply splice_byte in Es as (Q & _). }
  destruct Hou as (hc & Hou & Lhc). rewrite Hou. cbn [obind].
  change (out_table "hhea" (Some eb2)) with (Ret [(bs "hhea", eb2)]). change (out_table "maxp" (Some mb2)) with (Ret [(bs "maxp", mb2)]). cbn [obind].
  set (tables := concat copied ++ _).
  assert (TN : NoDup (map fst tables)).
  { unfold tables. rewrite map_app. apply NoDup_app_; [exact C1|cbn; repeat constructor; cbn; intuition discriminate|].
    intros x X1 X2. apply C2 in X1. clear -X1 X2. cbn in X1, X2. repeat (destruct X1 as [<-|X1]; [intuition discriminate|]). exact X1. }
  assert (TF : Forall (fun t : bytes * bytes => length (fst t) = 4%nat) tables).
  { unfold tables. apply Forall_app. split; [eapply Forall_impl; [|exact C3]; intros t [X _]; exact X|]. cbn [app]. repeat (constructor; [reflexivity|]). constructor. }
  assert (TI : In (bs "head", hc) tables) by (unfold tables; apply in_or_app; right; cbn; tauto).
  destruct (assemble_layout tables hc TN TI ltac:(lia) TF) as (k0 & h1 & x & y0 & z & h2 & a0 & a1 & _ & _ & _ & _ & _ & _ & Ea). cbn zeta in Ea. destruct Ea as [_ Ea]. rewrite Ea. cbn [obind].
  eexists. split; [reflexivity|discriminate].
Qed.
Print Assumptions C66_cut_partial.

(** the small font meets the conditions *)
Lemma ex_needed F (l : list Z) (ok_ : Z -> bool) : (forall g, In g l -> ok_ g = true) -> (forall g h, ok_ g = true -> uses F g h -> ok_ h = true) -> forall g, needed F l g -> ok_ g = true.
Proof. intros H1 H2 g N. induction N; eauto. Qed.
Lemma ex_uses F g h p : composite (glyph F g) = true -> components (glyph F g) 10 [p] -> uses F g h -> h = u16 (glyph F g) p.
Proof. intros C1 C2 (_ & fields & q & C3 & Hi & <-). rewrite (components_det _ _ _ C3 _ C2) in Hi. destruct Hi as [<-|[]]. reflexivity. Qed.
Example C66_case : complete_font ex_font ex_F ex_cmap 12 [65] /\ no_circles ex_F.
Proof.
  assert (C2 : components (glyph ex_F 2) 10 [12]) by (apply comp_last; [vm_compute; discriminate|vm_compute; reflexivity]).
  assert (U2 : forall h, uses ex_F 2 h -> h = 1) by (intros h U; apply (ex_uses _ 2 h 12) in U; [|vm_compute; reflexivity|exact C2]; subst h; vm_compute; reflexivity).
  assert (U0 : forall h, ~ uses ex_F 0 h) by (intros h [U _]; vm_compute in U; discriminate). assert (U1 : forall h, ~ uses ex_F 1 h) by (intros h [U _]; vm_compute in U; discriminate).
  assert (N : forall g, needed ex_F (0 :: map (char_glyph ex_cmap 12) [65]) g -> (fun g => (g =? 0) || (g =? 1) || (g =? 2)) g = true).
  { apply ex_needed.
    - intros g [<-|[<-|[]]]; vm_compute; reflexivity.
    - intros g h Hg U. assert (X : g = 0 \/ g = 1 \/ g = 2) by (cbn beta in Hg; lia). destruct X as [->|[->| ->]]; [now apply U0 in U|now apply U1 in U|]. apply U2 in U. subst h. reflexivity. }
  split.
  - constructor.
    + vm_compute. discriminate.
    + intros i Hi. assert (H : forallb (fun i => (12 <=? toff ex_font i) && (toff ex_font i + tlen ex_font i <=? len ex_font)) (range 0 (Z.to_nat (num_tables ex_font))) = true) by (vm_compute; reflexivity).
      pose proof (all_range _ _ H i Hi) as X. cbn beta in X. lia.
    + exists (repeat 0 32). split; [apply table_inb_ok; vm_compute; reflexivity|cbn; lia].
    + intros ch [<-|[]]. vm_compute. reflexivity.
    + intros g Hg Cp. apply N in Hg. assert (X : g = 0 \/ g = 1 \/ g = 2) by (cbn beta in Hg; lia). destruct X as [->|[->| ->]]; [vm_compute in Cp; discriminate|vm_compute in Cp; discriminate|eauto].
    + intros g h Hg U. apply N in Hg. assert (X : g = 0 \/ g = 1 \/ g = 2) by (cbn beta in Hg; lia). destruct X as [->|[->| ->]]; [now apply U0 in U|now apply U1 in U|]. apply U2 in U. subst h. vm_compute. reflexivity.
  - exists (fun g => if g =? 2 then 1%nat else 0%nat). intros g h U. assert (G2 : g = 2 -> h = 1) by (intros ->; exact (U2 h U)).
    destruct (Z.eq_dec g 2) as [->|Ng]; [rewrite (G2 eq_refl); cbn; lia|]. exfalso. destruct U as [Cp _].
    assert (Eq : forall g, g <> 2 -> composite (glyph ex_F g) = false).
    { clear. intros g Ng. unfold composite, glyph. change (u16 (F_head ex_F) 50) with 0. unfold loca_at. change (u16 (F_head ex_F) 50 =? 0) with true. cbv iota.
      destruct (Z.eq_dec g 0) as [->|N0]; [vm_compute; reflexivity|]. destruct (Z.eq_dec g 1) as [->|N1]; [vm_compute; reflexivity|]. destruct (Z.eq_dec g 3) as [->|N3]; [vm_compute; reflexivity|]. destruct (Z.eq_dec g 4) as [->|N4]; [vm_compute; reflexivity|].
      destruct (Z_lt_le_dec g 0) as [L|L].
      - destruct (Z.eq_dec g (-1)) as [->|Nm]; [vm_compute; reflexivity|].
        assert (X : forall i, i < 0 -> u16 (F_loca ex_F) (2 * i) = 0). { intros i Hi. unfold u16, byte_at. replace (Z.to_nat (2 * i)) with 0%nat by lia. replace (Z.to_nat (2 * i + 1)) with 0%nat by lia. reflexivity. }
        rewrite !X by lia. reflexivity.
      - assert (X : forall i, 5 <= i -> u16 (F_loca ex_F) (2 * i) = 0). { intros i Hi. unfold u16, byte_at. rewrite !nth_overflow; [reflexivity| |]; change (length (F_loca ex_F)) with 10%nat; lia. }
        rewrite !X by lia. reflexivity. }
    rewrite (Eq g Ng) in Cp. discriminate.
Qed.

(** a font with a glyph that is made of itself *)
Definition loop_glyf : bytes := [0; 1; 0; 0; 0; 0; 0; 9; 0; 9; 1; 1] ++ [0; 1; 0; 0; 0; 0; 0; 8; 0; 7; 2; 3] ++ [255; 255; 0; 0; 0; 0; 0; 5; 0; 6; 0; 0; 0; 2; 4; 5].
Definition loop_font : bytes :=
  match assemble [(bs "head", ex_head); (bs "hhea", ex_hhea); (bs "maxp", ex_maxp); (bs "hmtx", ex_hmtx); (bs "loca", ex_loca); (bs "glyf", loop_glyf);
                  (bs "cmap", ex_cmap); (bs "post", repeat 0 32); (bs "cvt ", [0; 7; 0; 8])] with Ret t => t | _ => [] end.
Definition loop_F : font :=
  {| F_head := extract loop_font (toff loop_font 3) 54; F_maxp := ex_maxp; F_hhea := ex_hhea; F_hmtx := ex_hmtx; F_loca := ex_loca; F_glyf := loop_glyf |}.
Lemma loop_sound : sound_glyphs loop_F.
Proof.
  constructor.
  - left. vm_compute. reflexivity.
  - discriminate.
  - vm_compute. intuition discriminate.
  - vm_compute. discriminate.
  - change (glyph_count loop_F) with 4. intros g Hg. assert (H : forallb (fun g => (loca_at loop_F g <=? loca_at loop_F (g + 1)) && (loca_at loop_F (g + 1) <=? len (F_glyf loop_F))) (range 0 (Z.to_nat 4)) = true) by (vm_compute; reflexivity).
    pose proof (all_range _ _ H g Hg) as X. cbn beta in X. lia.
  - change (glyph_count loop_F) with 4. intros g Hg. assert (H : forallb (fun g => (loca_at loop_F (g + 1) - loca_at loop_F g =? 0) || (10 <=? loca_at loop_F (g + 1) - loca_at loop_F g)) (range 0 (Z.to_nat 4)) = true) by (vm_compute; reflexivity).
    pose proof (all_range _ _ H g Hg) as X. cbn beta in X. lia.
  - vm_compute. intuition discriminate.
  - vm_compute. discriminate.
Qed.
Lemma loop_complete : complete_font loop_font loop_F ex_cmap 12 [65].
Proof.
  assert (C2 : components (glyph loop_F 2) 10 [12]) by (apply comp_last; [vm_compute; discriminate|vm_compute; reflexivity]).
  assert (U2 : forall h, uses loop_F 2 h -> h = 2) by (intros h U; apply (ex_uses _ 2 h 12) in U; [|vm_compute; reflexivity|exact C2]; subst h; vm_compute; reflexivity).
  assert (U0 : forall h, ~ uses loop_F 0 h) by (intros h [U _]; vm_compute in U; discriminate).
  assert (N : forall g, needed loop_F (0 :: map (char_glyph ex_cmap 12) [65]) g -> (fun g => (g =? 0) || (g =? 2)) g = true).
  { apply ex_needed.
    - intros g [<-|[<-|[]]]; vm_compute; reflexivity.
    - intros g h Hg U. assert (X : g = 0 \/ g = 2) by (cbn beta in Hg; lia). destruct X as [->| ->]; [now apply U0 in U|]. apply U2 in U. subst h. reflexivity. }
  constructor.
  - vm_compute. discriminate.
  - intros i Hi. assert (H : forallb (fun i => (12 <=? toff loop_font i) && (toff loop_font i + tlen loop_font i <=? len loop_font)) (range 0 (Z.to_nat (num_tables loop_font))) = true) by (vm_compute; reflexivity).
    pose proof (all_range _ _ H i Hi) as X. cbn beta in X. lia.
  - exists (repeat 0 32). split; [apply table_inb_ok; vm_compute; reflexivity|cbn; lia].
  - intros ch [<-|[]]. vm_compute. reflexivity.
  - intros g Hg Cp. apply N in Hg. assert (X : g = 0 \/ g = 2) by (cbn beta in Hg; lia). destruct X as [->| ->]; [vm_compute in Cp; discriminate|eauto].
  - intros g h Hg U. apply N in Hg. assert (X : g = 0 \/ g = 2) by (cbn beta in Hg; lia). destruct X as [->| ->]; [now apply U0 in U|]. apply U2 in U. subst h. vm_compute. reflexivity.
Qed.
Lemma loop_bytes : Forall is_byte loop_font.
Proof. apply Forall_forall. intros x Hx. assert (H : forallb (fun x => (0 <=? x) && (x <? 256)) loop_font = true) by (vm_compute; reflexivity). rewrite forallb_forall in H. specialize (H x Hx). unfold is_byte. lia. Qed.
Lemma loop_font_in : font_in loop_font loop_F.
Proof. repeat split; apply table_inb_ok; vm_compute; reflexivity. Qed.

(** the recursion of getSymbols never ends on glyph 2 *)
Lemma loop_symbols f locs begin g p q flags : loc locs g = Ret p -> loc locs (g + 1) = Ret q -> q - p <> 0 -> (exists v, rdi16 f (begin + p) = Ret v /\ v < 0) ->
  rd16 f (begin + p + 10) = Ret flags -> rd16 f (begin + p + 10 + 2) = Ret g ->
  forall fuel y, get_symbols fuel f locs begin g y = OutOfFuel /\ get_components fuel f locs begin (begin + p + 10) y = OutOfFuel.
Proof.
  intros E1 E2 N (v & E3 & V) E4 E5. induction fuel as [|fuel IH]; intros y; [split; reflexivity|]. split; cbn [get_symbols get_components].
  - rewrite E1, E2. cbn [obind]. replace (q - p =? 0) with false by lia. rewrite E3. cbn [obind]. replace (v <? 0) with true by lia. apply IH.
  - rewrite E4. cbn [obind]. rewrite E5. cbn [obind]. destruct (IH (add_symbol g y)) as [-> _]. reflexivity.
Qed.
Definition loop_dir : list (bytes * desc) := match read_dir loop_font with Ret d => d | _ => [] end.
Definition loop_locs : list Z := match parse_loca loop_font loop_dir 0 4 with Ret d => d | _ => [] end.
Definition loop_dict : list (Z * Z) := match cmap_position loop_font loop_dir with Ret (Some o) => match char_symbols loop_font o with Ret d => d | _ => [] end | _ => [] end.
Lemma loop_parse fuel : parse_symbols fuel loop_font loop_dir loop_locs loop_dict [65] = OutOfFuel.
Proof.
  unfold parse_symbols. replace (found_pairs loop_dict [65]) with [(65, 2)] by (vm_compute; reflexivity).
  cbn [map snd]. replace (zsort (dedup [0; 2])) with [0; 2] by (vm_compute; reflexivity). replace (seek_table loop_dir "glyf") with (Ret 220) by (vm_compute; reflexivity). cbn [obind get_all].
  destruct fuel as [|fuel]; [reflexivity|]. set (y0 := {| y_set := _; y_coll := _; y_keys := _ |}).
  assert (E0 : get_symbols (S fuel) loop_font loop_locs 220 0 y0 = Ret y0).
  { cbn [get_symbols]. replace (loc loop_locs 0) with (Ret 0) by (vm_compute; reflexivity). replace (loc loop_locs (0 + 1)) with (Ret 12) by (vm_compute; reflexivity). cbn [obind]. change (12 - 0 =? 0) with false. cbv iota.
    replace (rdi16 loop_font (220 + 0)) with (Ret 1) by (vm_compute; reflexivity). reflexivity. }
  rewrite E0. cbn [obind].
  destruct (loop_symbols loop_font loop_locs 220 2 24 40 0) with (fuel := S fuel) (y := y0) as [E _]; [vm_compute; reflexivity|vm_compute; reflexivity|lia|exists (-1); split; [vm_compute; reflexivity|lia]|vm_compute; reflexivity|vm_compute; reflexivity|].
  rewrite E. reflexivity.
Qed.
Lemma loop_cut fuel : cut_font fuel loop_font [65] = OutOfFuel.
Proof.
  unfold cut_font. replace (read_dir loop_font) with (Ret loop_dir) by (vm_compute; reflexivity). cbn [obind].
  replace (seek_table loop_dir "head") with (Ret 260) by (vm_compute; reflexivity). cbn [obind]. replace (rd16 loop_font (260 + 50)) with (Ret 0) by (vm_compute; reflexivity). cbn [obind].
  replace (seek_table loop_dir "hhea") with (Ret 316) by (vm_compute; reflexivity). cbn [obind]. replace (rd16 loop_font (316 + 34)) with (Ret 2) by (vm_compute; reflexivity). cbn [obind].
  replace (seek_table loop_dir "maxp") with (Ret 376) by (vm_compute; reflexivity). cbn [obind]. replace (rd16 loop_font (376 + 4)) with (Ret 4) by (vm_compute; reflexivity). cbn [obind].
  replace (cmap_position loop_font loop_dir) with (Ret (Some 168)) by (vm_compute; reflexivity). cbn [obind]. replace (char_symbols loop_font 168) with (Ret loop_dict) by (vm_compute; reflexivity). cbn [obind].
  replace (seek_table loop_dir "hmtx") with (Ret 352) by (vm_compute; reflexivity). cbn [obind]. replace (rd loop_font 352 (2 * 4)) with (Ret (extract loop_font 352 8)) by (vm_compute; reflexivity). cbn [obind].
  replace (parse_loca loop_font loop_dir 0 4) with (Ret loop_locs) by (vm_compute; reflexivity). cbn [obind]. rewrite loop_parse. reflexivity.
Qed.
(** the claim without the condition on circles *)
Definition C66_statement : Prop := forall (f : bytes) (used : list Z) (F : font) (cm : bytes) (o : Z),
  Forall is_byte f -> font_in f F -> table_in f "cmap" cm -> sound_glyphs F -> sound_map cm o -> separate_tables f -> complete_font f F cm o used ->
  exists fuel c, cut_font fuel f used = Ret (Some c).
Theorem C66_circle_refuted : ~ C66_statement.
Proof.
  intros H. destruct (H loop_font [65] loop_F ex_cmap 12 loop_bytes loop_font_in) as (fuel & c & E).
  - apply table_inb_ok. vm_compute. reflexivity.
  - exact loop_sound.
  - exact ex_map.
  - apply separate_ok. vm_compute. reflexivity.
  - exact loop_complete.
  - rewrite loop_cut in E. discriminate.
Qed.
Print Assumptions C66_circle_refuted.
