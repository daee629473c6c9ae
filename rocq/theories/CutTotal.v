(** GenerateCutFont returns a font for every complete font without circles among its glyphs. *)
From Verif Require Import Base DocModel DocSort TtfSpec TtfModel TtfProofs TtfProps TtfCmap CutSpec CutModel CutProofs CutClosure CutRead CutGlyphs CutSymbols CutCmap CutOut CutMain CutProps.
From Coq Require Import String Permutation.
Open Scope Z_scope.
Notation length := List.length.
Notation concat := List.concat.

Definition ok {A} (o : outcome A) : Prop := exists v, o = Ret v.
Lemma ok_bind {A B} (o : outcome A) (k : A -> outcome B) : ok o -> (forall v, o = Ret v -> ok (k v)) -> ok (obind o k).
Proof. intros (v & ->) H. exact (H v eq_refl). Qed.
Lemma ok_ret {A} (v : A) : ok (Ret v).
Proof. now exists v. Qed.
Lemma omap_ok {A B} (g : A -> outcome B) l : (forall a, In a l -> ok (g a)) -> ok (omap g l).
Proof.
  induction l as [|a l IH]; intros H; [apply ok_ret|]. cbn [omap]. apply ok_bind; [apply H; now left|]. intros b _. apply ok_bind; [apply IH; intros; apply H; now right|]. intros r _. apply ok_ret.
Qed.
Lemma rd_ok' f p n : 0 <= p -> 0 <= n -> p + n <= len f -> ok (rd f p n).
Proof. intros. rewrite rd_ok by assumption. apply ok_ret. Qed.
Lemma rd16_ok' f p : 0 <= p -> p + 2 <= len f -> ok (rd16 f p).
Proof. intros. rewrite rd16_ok by assumption. apply ok_ret. Qed.
Lemma rdi16_ok f p : 0 <= p -> p + 2 <= len f -> ok (rdi16 f p).
Proof. intros. unfold rdi16. apply ok_bind; [now apply rd16_ok'|]. intros v _. apply ok_ret. Qed.
Lemma rd32_ok f p : 0 <= p -> p + 4 <= len f -> ok (rd32 f p).
Proof. intros. unfold rd32. apply ok_bind; [apply rd_ok'; lia|]. intros v _. apply ok_ret. Qed.
Lemma slice_ok (s : bytes) a b : 0 <= a -> a <= b -> b <= len s -> exists m, slice s a b = Some m.
Proof. intros. unfold slice. replace ((0 <=? a) && (a <=? b) && (b <=? len s)) with true by lia. eauto. Qed.
Lemma splice_ok (s : bytes) o (v : bytes) : 0 <= o -> o + len v <= len s -> ok (splice s o v).
Proof.
  intros H1 H2. unfold splice. destruct (slice_ok s 0 o ltac:(lia) ltac:(lia) ltac:(lia)) as (a & ->). destruct (slice_ok s (o + len v) (len s) ltac:(lia) ltac:(lia) ltac:(lia)) as (b & ->). apply ok_ret.
Qed.
Lemma insert_ok (s : bytes) o v : 0 <= o -> o + 2 <= len s -> ok (insert_u16 s o v).
Proof. intros. apply splice_ok; cbn; lia. Qed.
Lemma patch_ok (t : bytes) o v : 0 <= o -> o + 2 <= len t -> ok (patch (Some t) o v).
Proof. intros. unfold patch. apply ok_bind; [now apply insert_ok|]. intros b _. apply ok_ret. Qed.

Lemma read_dir_ok f : Forall is_byte f -> 12 + 16 * num_tables f <= len f -> ok (read_dir f).
Proof.
  intros Hf H. pose proof (u16_range f 4 Hf) as U. fold (num_tables f) in U. unfold read_dir. rewrite rd16_ok by lia. cbn [obind]. fold (num_tables f).
  apply ok_bind; [apply rd_ok'; lia|]. intros _ _. apply ok_bind; [|intros l _; apply ok_ret]. apply omap_ok. intros i Hi. apply in_range in Hi. unfold read_entry.
  apply ok_bind; [apply rd_ok'; lia|]. intros n _. apply ok_bind; [apply rd_ok'; lia|]. intros c _. apply ok_bind; [apply rd32_ok; lia|]. intros p _. apply ok_bind; [apply rd32_ok; lia|]. intros s _. apply ok_ret.
Qed.
Lemma table_data_ok f f' dir name : Forall is_byte f -> read_dir f = Ret dir -> (forall i, 0 <= i < num_tables f -> toff f i + tlen f i <= len f) -> len f' = len f -> ok (table_data f' dir name).
Proof.
  intros Hf Hd Hin L. unfold table_data. destruct (find_desc dir (bs name)) as [d|] eqn:E; [|apply ok_ret]. destruct (t_size d =? 0); [apply ok_ret|].
  destruct (find_desc_some f dir name d Hf Hd E) as (i & Hi & _ & E1 & E2). pose proof (u32_range f (12 + 16 * i + 8) Hf). pose proof (u32_range f (12 + 16 * i + 12) Hf). specialize (Hin i Hi).
  apply ok_bind; [|intros; apply ok_ret]. unfold toff, tlen in *. apply rd_ok'; lia.
Qed.

Lemma find_cmap_ok f p n : let cm := extract f p n in Forall is_byte f -> 0 < p -> 0 <= n -> p + n <= len f ->
  forall k q o, 0 <= q -> q + 8 * Z.of_nat k <= n -> (forall i, 0 <= i < Z.of_nat k -> u32 cm (q + 8 * i + 4) + 2 <= n) ->
  find_unicode cm k q = Some o -> find_cmap f p k (p + q) = Ret (Some (p + o)).
Proof.
  intros cm Hf Hp Hn Hl. induction k as [|k IH]; intros q o Hq Hk Hin H; [discriminate|]. cbn [find_unicode find_cmap] in *.
  pose proof (Hin 0 ltac:(lia)) as H0. rewrite Z.mul_0_r, Z.add_0_r in H0. unfold cm in H, H0. rewrite !u16_extract in H by lia. rewrite !u32_extract in H, H0 by lia. pose proof (u32_range f (p + (q + 4)) Hf) as U.
  rewrite (u16_extract f p n (u32 f (p + (q + 4)))) in H by lia.
  rewrite !rd16_ok by lia. cbn [obind].
  assert (R32 : rd32 f (p + q + 4) = Ret (u32 f (p + (q + 4)))). { destruct (rd32_ok f (p + q + 4) ltac:(lia) ltac:(lia)) as (v & E). rewrite E. apply rd32_ret in E as (_ & _ & ->). do 2 f_equal. lia. }
  rewrite R32. cbn [obind]. replace (p + (q + 2)) with (p + q + 2) in H by lia.
  assert (Rest : find_unicode cm k (q + 8) = Some o -> find_cmap f p k (p + q + 8) = Ret (Some (p + o))).
  { intros X. rewrite <- Z.add_assoc. apply IH; [lia|lia| |exact X]. intros i Hi. specialize (Hin (i + 1) ltac:(lia)). replace (q + 8 + 8 * i + 4) with (q + 8 * (i + 1) + 4) by lia. exact Hin. }
  rewrite (orb_comm ((_ =? 3) && _)). destruct ((u16 f (p + q) =? 0) || ((u16 f (p + q) =? 3) && (u16 f (p + q + 2) =? 1))); cbn [andb] in H.
  - rewrite rd16_ok by lia. cbn [obind]. destruct (u16 f (p + u32 f (p + (q + 4))) =? 4).
    + injection H as <-. replace (p + u32 f (p + (q + 4)) =? 0) with false by lia. reflexivity.
    + auto.
  - auto.
Qed.

Lemma char_symbols_ok f p n o : let cm := extract f p n in Forall is_byte f -> 0 <= p -> 0 <= n -> p + n <= len f -> 0 <= o -> sound_map cm o -> ok (char_symbols f (p + o)).
Proof.
  intros cm Hf Hp Hn Hl Ho SM. destruct (sm_length cm o SM) as [L1 L2]. pose proof (sm_even cm o SM) as Ev. pose proof (sm_range cm o SM) as R. unfold cm in *. rewrite extract_len in L2 by lia.
  assert (HF : Forall is_byte (extract f p n)) by now apply extract_bytes. pose proof (u16_range _ (o + 6) HF) as U6. pose proof (u16_range _ (o + 2) HF) as U2.
  assert (E6 : u16 (extract f p n) (o + 6) = u16 f (p + o + 6)) by (rewrite u16_extract by lia; f_equal; lia).
  assert (E2 : u16 (extract f p n) (o + 2) = u16 f (p + o + 2)) by (rewrite u16_extract by lia; f_equal; lia).
  assert (Es : 2 * (u16 f (p + o + 6) / 2) = u16 f (p + o + 6)). { rewrite <- E6. pose proof (Z.div_mod (u16 (extract f p n) (o + 6)) 2 ltac:(lia)). lia. }
  unfold char_symbols. rewrite E6 in *. rewrite E2 in *. rewrite !rd16_ok by lia. cbn [obind]. rewrite Es. set (s := u16 f (p + o + 6)) in *. set (k := Z.to_nat (s / 2)).
  assert (Hk : 2 * Z.of_nat k = s) by (unfold k; rewrite Z2Nat.id by (apply Z.div_pos; lia); exact Es).
  apply ok_bind; [apply omap_ok; intros i Hi; apply in_range in Hi; apply rd16_ok'; lia|]. intros ends E1.
  apply ok_bind; [apply omap_ok; intros i Hi; apply in_range in Hi; apply rd16_ok'; lia|]. intros starts E3.
  apply ok_bind; [apply omap_ok; intros i Hi; apply in_range in Hi; apply rdi16_ok; lia|]. intros deltas E4.
  apply ok_bind; [apply omap_ok; intros i Hi; apply in_range in Hi; apply rd16_ok'; lia|]. intros positions E5.
  apply ok_bind; [|intros; apply ok_ret]. apply omap_ok. intros i Hi. apply in_range in Hi. unfold segment_pairs.
  rewrite (omap_nth _ (fun i => u16 f (p + o + 14 + 2 * i)) _ _ E1) by (try lia; intros ? ? X; apply rd16_ret in X as (_ & _ & ->); reflexivity).
  rewrite (omap_nth _ (fun i => u16 f (p + o + 16 + s + 2 * i)) _ _ E3) by (try lia; intros ? ? X; apply rd16_ret in X as (_ & _ & ->); reflexivity).
  rewrite (omap_nth _ (fun i => u16 f (p + o + 16 + 3 * s + 2 * i)) _ _ E5) by (try lia; intros ? ? X; apply rd16_ret in X as (_ & _ & ->); reflexivity).
  apply omap_ok. intros c Hc. apply in_range in Hc. apply ok_bind; [|intros; apply ok_ret]. unfold seg_symbol.
  destruct (u16 f (p + o + 16 + 3 * s + 2 * i) =? 0) eqn:Ez; [apply ok_ret|]. destruct (p + o + _ <=? _) eqn:Er; [apply ok_ret|].
  specialize (R i ltac:(lia)). cbn zeta in R. unfold seg_end_of, seg_start_of in R. rewrite E6, (u16_extract f p n (o + _)) in R by lia. replace (p + (o + (16 + 3 * s + 2 * i))) with (p + o + 16 + 3 * s + 2 * i) in R by lia.
  destruct R as [R|R]; [lia|]. rewrite !u16_extract in R by lia. replace (p + (o + 14 + 2 * i)) with (p + o + 14 + 2 * i) in R by lia. replace (p + (o + 16 + s + 2 * i)) with (p + o + 16 + s + 2 * i) in R by lia.
  pose proof (u16_range f (p + o + 16 + 3 * s + 2 * i) Hf). apply ok_bind; [|intros; apply ok_ret]. apply rd16_ok'; lia.
Qed.

Lemma parse_loca_ok f dir l F : find_desc dir (bs "loca") = Some l -> F_loca F = extract f (t_pos l) (t_size l) ->
  0 <= t_pos l -> 0 <= t_size l -> t_pos l + t_size l <= len f -> sound_glyphs F -> 0 <= glyph_count F -> ok (parse_loca f dir (u16 (F_head F) 50) (glyph_count F)).
Proof.
  intros D E H0 H1 H2 SG Hg. unfold parse_loca. rewrite (seek_some _ _ _ D). cbn [obind]. pose proof (sg_loca F SG) as L. rewrite E, extract_len in L by lia.
  destruct (sg_format F SG) as [X|X]; rewrite X in *; [change (0 =? 0) with true in *|change (1 =? 0) with false in *; change (1 =? 1) with true in *]; cbv iota in *.
  - apply ok_bind; [apply rd_ok'; lia|]. intros _ _. apply omap_ok. intros i Hi. apply in_range in Hi. apply ok_bind; [apply rd16_ok'; lia|]. intros; apply ok_ret.
  - apply ok_bind; [apply rd_ok'; lia|]. intros _ _. apply omap_ok. intros i Hi. apply in_range in Hi. apply rd32_ok; lia.
Qed.

Section Fuel.
  Variables (f : bytes) (F : font) (gl : desc) (locs : list Z).
  Hypothesis Hf : Forall is_byte f.
  Hypothesis Hg0 : 0 <= t_pos gl.
  Hypothesis Hgs : 0 <= t_size gl.
  Hypothesis Hgl : t_pos gl + t_size gl <= len f.
  Hypothesis HFg : F_glyf F = extract f (t_pos gl) (t_size gl).
  Hypothesis Hsound : sound_glyphs F.
  Hypothesis Hlocs : forall g p, loc locs g = Ret p <-> 0 <= g <= glyph_count F /\ p = loca_at F g.
  Hypothesis Hloca0 : forall g, 0 <= g <= glyph_count F -> 0 <= loca_at F g.

  Lemma get_components_ok base n p fields : 0 <= base -> 0 <= n -> base + n <= len f -> 0 <= p -> components (extract f base n) p fields ->
    (forall q, In q fields -> exists k, forall fuel y, (k <= fuel)%nat -> ok (get_symbols fuel f locs (t_pos gl) (u16 (extract f base n) q) y)) ->
    exists k, forall fuel y, (k <= fuel)%nat -> ok (get_components fuel f locs (t_pos gl) (base + p) y).
  Proof.
    intros Hb Hn Hl Hp C. induction C as [p H1 H2|p l H1 H2 C IH]; intros H; rewrite extract_len in H1 by lia.
    - destruct (H (p + 2) ltac:(now left)) as (k & Hk). exists (S k). intros fuel y Hy. destruct fuel as [|fuel]; [lia|]. cbn [get_components].
      rewrite (rd16_ok f (base + p)), (rd16_ok f (base + p + 2)) by lia. cbn [obind]. rewrite !u16_extract in * by lia. rewrite Z.add_assoc in Hk.
      apply ok_bind; [apply Hk; lia|]. intros y' _. rewrite flag32, H2. apply ok_ret.
    - pose proof (component_size_pos (u16 (extract f base n) p)) as Sz. destruct (H (p + 2) ltac:(now left)) as (k & Hk). destruct IH as (k2 & Hk2); [lia|intros q Hq; apply H; now right|].
      exists (S (Nat.max k k2)). intros fuel y Hy. destruct fuel as [|fuel]; [lia|]. cbn [get_components].
      rewrite (rd16_ok f (base + p)), (rd16_ok f (base + p + 2)) by lia. cbn [obind]. rewrite !u16_extract in * by lia. rewrite Z.add_assoc in Hk.
      apply ok_bind; [apply Hk; lia|]. intros y' _. rewrite flag32, H2. rewrite <- (Z.add_assoc (base + p) 4), after_component_size, <- Z.add_assoc. apply Hk2. lia.
  Qed.

  Lemma get_symbols_ok (l : list Z) (rank : Z -> nat) :
    (forall g, needed F l g -> 0 <= g < glyph_count F) ->
    (forall g, needed F l g -> composite (glyph F g) = true -> exists fields, components (glyph F g) 10 fields) ->
    (forall g h, needed F l g -> uses F g h -> (rank h < rank g)%nat) ->
    forall g, needed F l g -> exists k, forall fuel y, (k <= fuel)%nat -> ok (get_symbols fuel f locs (t_pos gl) g y).
  Proof.
    intros HB HC HR. assert (W : forall n g, (rank g < n)%nat -> needed F l g -> exists k, forall fuel y, (k <= fuel)%nat -> ok (get_symbols fuel f locs (t_pos gl) g y)); [|intros g Hg; exact (W (S (rank g)) g (Nat.lt_succ_diag_r _) Hg)].
    induction n as [|n IH]; intros g Hr Hg; [lia|]. pose proof (HB g Hg) as B. pose proof (Hloca0 g ltac:(lia)) as L0. destruct (sg_order F Hsound g B) as [O1 _].
    destruct (glyph_extract f F gl Hg0 Hgs Hgl HFg Hsound g B L0) as (G1 & G2 & G3).
    assert (E1 : loc locs g = Ret (loca_at F g)) by (apply Hlocs; split; [lia|reflexivity]). assert (E2 : loc locs (g + 1) = Ret (loca_at F (g + 1))) by (apply Hlocs; split; [lia|reflexivity]).
    destruct (sg_size F Hsound g B) as [Sz|Sz].
    { exists 1%nat. intros fuel y Hy. destruct fuel as [|fuel]; [lia|]. cbn [get_symbols]. rewrite E1, E2. cbn [obind]. replace (_ =? 0) with true by lia. apply ok_ret. }
    assert (E3 : rdi16 f (t_pos gl + loca_at F g) = Ret (if u16 f (t_pos gl + loca_at F g) <? 32768 then u16 f (t_pos gl + loca_at F g) else u16 f (t_pos gl + loca_at F g) - 65536)).
    { unfold rdi16. rewrite rd16_ok by lia. reflexivity. }
    destruct (composite (glyph F g)) eqn:Cp.
    - destruct (HC g Hg Cp) as (fields & Cf). assert (Cf' := Cf). rewrite G1 in Cf'.
      destruct (get_components_ok (t_pos gl + loca_at F g) (loca_at F (g + 1) - loca_at F g) 10 fields ltac:(lia) ltac:(lia) ltac:(lia) ltac:(lia) Cf') as (k & Hk).
      + intros q Hq. rewrite <- G1. assert (U : uses F g (u16 (glyph F g) q)) by (split; [exact Cp|exists fields, q; auto]). apply IH; [specialize (HR _ _ Hg U); lia|]. eapply need_part; eauto.
      + exists (S k). intros fuel y Hy. destruct fuel as [|fuel]; [lia|]. cbn [get_symbols]. rewrite E1, E2. cbn [obind]. replace (_ =? 0) with false by lia. rewrite E3. cbn [obind].
        unfold composite in Cp. rewrite G2 in Cp. rewrite G1 in Cp at 1. rewrite u16_extract, Z.add_0_r in Cp by lia. pose proof (u16_range f (t_pos gl + loca_at F g) Hf). replace (u16 f (t_pos gl + loca_at F g) <? 32768) with false by lia. replace (_ <? 0) with true by lia.
        apply Hk. lia.
    - exists 1%nat. intros fuel y Hy. destruct fuel as [|fuel]; [lia|]. cbn [get_symbols]. rewrite E1, E2. cbn [obind]. replace (_ =? 0) with false by lia. rewrite E3. cbn [obind].
      unfold composite in Cp. rewrite G2 in Cp. rewrite G1 in Cp at 1. rewrite u16_extract, Z.add_0_r in Cp by lia. pose proof (u16_range f (t_pos gl + loca_at F g) Hf). replace (u16 f (t_pos gl + loca_at F g) <? 32768) with true by lia. replace (_ <? 0) with false by lia. apply ok_ret.
  Qed.
  Lemma get_all_ok l : (forall g, In g l -> exists k, forall fuel y, (k <= fuel)%nat -> ok (get_symbols fuel f locs (t_pos gl) g y)) ->
    exists k, forall fuel y, (k <= fuel)%nat -> ok (get_all fuel f locs (t_pos gl) l y).
  Proof.
    induction l as [|g l IH]; intros H; [exists O; intros; apply ok_ret|]. destruct (H g ltac:(now left)) as (k & Hk). destruct IH as (k2 & Hk2); [intros; apply H; now right|].
    exists (Nat.max k k2). intros fuel y Hy. cbn [get_all]. apply ok_bind; [apply Hk; lia|]. intros y' _. apply Hk2. lia.
  Qed.
  Lemma reach_needed l g0 g : (forall g, needed F l g -> 0 <= g < glyph_count F) -> (forall g, needed F l g -> composite (glyph F g) = true -> exists fields, components (glyph F g) 10 fields) ->
    reach f locs (t_pos gl) g0 g -> needed F l g0 -> needed F l g.
  Proof.
    intros HB HC R. induction R as [g|g h k Hu R IH]; intros N; [exact N|]. apply IH. eapply need_part; [exact N|].
    apply (fuses_uses f F gl locs Hf Hg0 Hgs Hgl HFg Hsound Hlocs Hloca0 g h (HB g N) (HC g N)). exact Hu.
  Qed.
End Fuel.

Lemma renumber_ok set (data0 : bytes) : forall (data : bytes) p fields fuel, 0 <= p -> components data p fields -> len data = len data0 -> len data0 - p <= Z.of_nat fuel -> ok (renumber fuel set data p).
Proof.
  intros data p fields fuel Hp C. revert fuel Hp. remember (len data) as L eqn:EL. 
  assert (G : forall fields p, components data p fields -> forall data' : bytes, len data' = L -> (forall q, p <= q -> byte_at data' q = byte_at data q) -> forall fuel, 0 <= p -> L - p <= Z.of_nat fuel -> ok (renumber fuel set data' p)).
  { clear p fields C. intros fields p C. induction C as [p H1 H2|p l H1 H2 C IH]; intros data' L' A fuel Hp Hfu; (destruct fuel as [|fuel]; [lia|]); cbn [renumber];
      rewrite (rd16_ok data' p), (rd16_ok data' (p + 2)) by lia; cbn [obind]; (apply ok_bind; [apply insert_ok; lia|]); intros d Hd; rewrite flag32, (u16_same data' data p) by (try apply A; lia); rewrite H2.
    - apply ok_ret.
    - pose proof (component_size_pos (u16 data p)) as Sz. rewrite <- Z.add_assoc, after_component_size. apply insert_ret in Hd as (_ & _ & D1 & D2 & _). apply IH; [lia| |lia|lia].
      intros q Hq. rewrite D2 by lia. apply A. lia. }
  intros fuel Hp L0 Hfu. eapply G; eauto. lia.
Qed.

Section GlyphsOk.
  Variables (f : bytes) (dir : list (bytes * desc)) (F : font) (h gl : desc) (locs : list Z) (set : list (Z * Z)).
  Let count := long_metrics F.
  Let P := t_pos h + 4 * (count - 1) + 2.
  Hypothesis Hf : Forall is_byte f.
  Hypothesis Hh : find_desc dir (bs "hmtx") = Some h.
  Hypothesis Hh0 : 0 <= t_pos h.
  Hypothesis Hhs : 0 <= t_size h.
  Hypothesis Hhl : t_pos h + t_size h <= len f.
  Hypothesis HFh : F_hmtx F = extract f (t_pos h) (t_size h).
  Hypothesis Hg0 : 0 <= t_pos gl.
  Hypothesis Hgs : 0 <= t_size gl.
  Hypothesis Hgl : t_pos gl + t_size gl <= len f.
  Hypothesis HFg : F_glyf F = extract f (t_pos gl) (t_size gl).
  Hypothesis Hapart : t_pos h + t_size h <= t_pos gl \/ t_pos gl + t_size gl <= t_pos h.
  Hypothesis Hsound : sound_glyphs F.
  Hypothesis Hlocs : forall g p, loc locs g = Ret p <-> 0 <= g <= glyph_count F /\ p = loca_at F g.
  Hypothesis Hloca0 : forall g, 0 <= g <= glyph_count F -> 0 <= loca_at F g.

  Lemma put_glyph_ok g s : same_but P f (g_file s) -> g_pos s mod 4 = 0 -> 0 <= g < glyph_count F -> (composite (glyph F g) = true -> exists fields, components (glyph F g) 10 fields) ->
    ok (put_glyph dir count true (t_pos gl) locs set g s).
  Proof.
    intros S M B HC. unfold put_glyph. pose proof (sg_long F Hsound) as Lg. fold count in Lg. pose proof (sg_hmtx F Hsound) as Lh. fold count in Lh. rewrite HFh, extract_len in Lh by lia.
    destruct S as (S1 & S2 & S3). 
    apply ok_bind.
    { unfold get_metrics. rewrite (seek_some _ _ _ Hh). cbn [obind]. destruct (g <? count) eqn:Eg; (apply ok_bind; [apply rd_ok'; lia|]); intros m _; [apply ok_ret|]. apply ok_bind; [apply rd_ok'; lia|]. intros b _. apply ok_ret. }
    intros [hm f'] Em. assert (SB : same_but P f f').
    { eapply (get_metrics_ret f (g_file s) dir h count g hm f' Hh Hh0); [lia|lia|split; [exact S1|split; [exact S2|exact S3]]|exact Em]. }
    apply ok_bind; [|intros; apply ok_ret].
    pose proof (Hloca0 g ltac:(lia)) as L0. destruct (sg_order F Hsound g B) as [O1 _].
    destruct (glyph_extract f F gl Hg0 Hgs Hgl HFg Hsound g B L0) as (G1 & G2 & G3).
    assert (E1 : loc locs g = Ret (loca_at F g)) by (apply Hlocs; split; [lia|reflexivity]). assert (E2 : loc locs (g + 1) = Ret (loca_at F (g + 1))) by (apply Hlocs; split; [lia|reflexivity]).
    unfold glyph_data. rewrite E1, E2. cbn [obind]. destruct SB as (SB1 & SB2 & SB3). rewrite rd_ok by lia. cbn [obind].
    pose proof (P_in f F h locs Hh0 Hhs Hhl HFh Hsound Hlocs) as PI. cbn zeta in PI. fold count in PI. fold P in PI.
    rewrite (extract_same P f f') by (first [lia|split; [exact SB1|split; [exact SB2|exact SB3]]]). rewrite <- G1.
    apply ok_bind. { destruct (0 <? _) eqn:Ez; [|apply ok_ret]. destruct (sg_size F Hsound g B) as [Sz|Sz]; [lia|]. apply rd16_ok'; lia. }
    intros up Eup. destruct (_ && _) eqn:Ec; [|apply ok_ret]. replace (0 <? _) with true in Eup by lia. apply rd16_ret in Eup as (_ & _ & ->).
    destruct HC as (fields & Cf); [unfold composite; rewrite G2; exact Ec|]. eapply (renumber_ok set (glyph F g)); [|exact Cf|reflexivity|]; lia.
  Qed.
  Lemma put_glyphs_ok l : forall s, same_but P f (g_file s) -> g_pos s mod 4 = 0 ->
    (forall g, In g l -> 0 <= g < glyph_count F /\ (composite (glyph F g) = true -> exists fields, components (glyph F g) 10 fields)) ->
    ok (put_glyphs dir count true (t_pos gl) locs set l s).
  Proof.
    induction l as [|g l IH]; intros s S M H; [apply ok_ret|]. cbn [put_glyphs]. destruct (H g ltac:(now left)) as [B C]. apply ok_bind; [now apply put_glyph_ok|]. intros s' E.
    destruct (put_glyph_ret f dir F h gl locs set Hh Hh0 Hhs Hhl HFh Hg0 Hgs Hgl HFg Hapart Hsound Hlocs (fun g Hg => Hloca0 g Hg) g s s' S M E) as (dm & _ & _ & _ & _ & _ & S' & M' & _).
    apply IH; [exact S'|exact M'|]. intros; apply H; now right.
  Qed.
End GlyphsOk.
