(** The glyphs, their places and their metrics in the new font. *)
From Verif Require Import Base DocModel TtfSpec TtfModel TtfProofs CutSpec CutModel CutProofs CutRead.
From Coq Require Import String Permutation.
Open Scope Z_scope.
Notation length := List.length.
Notation concat := List.concat.

Lemma renumber_bytes set fuel : forall data p r, Forall is_byte data -> renumber fuel set data p = Ret r -> Forall is_byte r.
Proof.
  induction fuel as [|fuel IH]; intros data p r Hd H; cbn [renumber] in H; [discriminate|]. obr H. obr H. obr H. apply insert_bytes in E1; [|exact Hd].
  destruct (flag v 32); [eapply IH; eauto|]. now injection H as <-.
Qed.

(** ** offsets *)
Fixpoint offs (p : Z) (ds : list bytes) : list Z :=
  match ds with [] => [p] | d :: t => p :: offs (p + len d) t end.
Lemma offs_nth : forall ds p i, (i <= length ds)%nat -> nth_error (offs p ds) i = Some (p + len (concat (firstn i ds))).
Proof.
  induction ds as [|d ds IH]; intros p [|i] H; cbn [length] in H; try lia; cbn [offs nth_error firstn concat length]; try (f_equal; lia).
  rewrite IH by lia. rewrite app_length. f_equal. lia.
Qed.
Lemma offs_len : forall ds p, length (offs p ds) = S (length ds).
Proof. induction ds as [|d ds IH]; intros p; cbn [offs length]; [reflexivity|now rewrite IH]. Qed.
Lemma concat_split (ds : list bytes) i d : nth_error ds i = Some d -> concat ds = concat (firstn i ds) ++ d ++ concat (skipn (S i) ds).
Proof.
  revert i. induction ds as [|x ds IH]; intros [|i] H; try discriminate; cbn in H.
  - injection H as <-. reflexivity.
  - cbn [firstn skipn concat]. rewrite (IH i H) at 1. rewrite <- app_assoc. reflexivity.
Qed.
Lemma firstn_S_concat (ds : list bytes) i d : nth_error ds i = Some d -> concat (firstn (S i) ds) = concat (firstn i ds) ++ d.
Proof.
  revert i. induction ds as [|x ds IH]; intros [|i] H; try discriminate; cbn in H.
  - injection H as <-. cbn. now rewrite app_nil_r.
  - cbn [firstn concat]. cbn [firstn] in IH. rewrite (IH i H). now rewrite app_assoc.
Qed.
Lemma offs_mod : forall ds p, p mod 4 = 0 -> Forall (fun d : bytes => len d mod 4 = 0) ds -> Forall (fun o => o mod 4 = 0) (offs p ds).
Proof.
  induction ds as [|d ds IH]; intros p Hp H; cbn [offs]; constructor; auto. inversion H; subst. apply IH; [|assumption].
  rewrite Z.add_mod by lia. rewrite Hp, H2. reflexivity.
Qed.

Section Glyphs.
  Variables (f : bytes) (dir : list (bytes * desc)) (F : font) (h gl : desc) (locs : list Z) (set : list (Z * Z)).
  Let count := long_metrics F.
  Let P := t_pos h + 4 * (count - 1) + 2.
  Hypothesis Hf : Forall is_byte f.
  Hypothesis Hh : find_desc dir (bs "hmtx") = Some h.
  Hypothesis Hh0 : 0 <= t_pos h.
  Hypothesis Hhs : 0 <= t_size h.
  Hypothesis Hhl : t_pos h + t_size h <= len f.
  Hypothesis HFh : F_hmtx F = extract f (t_pos h) (t_size h).
  Hypothesis Hg0 : 0 <= t_pos gl.
  Hypothesis Hgs : 0 <= t_size gl.
  Hypothesis Hgl : t_pos gl + t_size gl <= len f.
  Hypothesis HFg : F_glyf F = extract f (t_pos gl) (t_size gl).
  Hypothesis Hapart : t_pos h + t_size h <= t_pos gl \/ t_pos gl + t_size gl <= t_pos h.
  Hypothesis Hsound : sound_glyphs F.
  Hypothesis Hlocs : forall g p, loc locs g = Ret p <-> 0 <= g <= glyph_count F /\ p = loca_at F g.

  Lemma hmtx_size : 4 * count + 2 * (glyph_count F - count) <= t_size h.
  Proof. pose proof (sg_hmtx F Hsound) as H. rewrite HFh, extract_len in H by lia. exact H. Qed.
  Lemma count_pos : 1 <= count <= glyph_count F.
  Proof. exact (sg_long F Hsound). Qed.

  (** the two changed bytes are in the table hmtx *)
  Lemma P_in : t_pos h <= P /\ P + 2 <= t_pos h + t_size h.
  Proof. pose proof hmtx_size. pose proof count_pos. unfold P. lia. Qed.

  Lemma glyph_extract g : 0 <= g < glyph_count F -> 0 <= loca_at F g -> glyph F g = extract f (t_pos gl + loca_at F g) (loca_at F (g + 1) - loca_at F g) /\
    len (glyph F g) = loca_at F (g + 1) - loca_at F g /\ t_pos gl + loca_at F (g + 1) <= t_pos gl + t_size gl.
  Proof.
    clear Hhs Hhl Hlocs Hapart HFh Hh0 Hh Hf P.
    intros Hg H0. destruct (sg_order F Hsound g Hg) as [O1 O2]. unfold glyph. rewrite HFg in *. rewrite extract_len in O2 by lia.
    rewrite extract_extract by lia. split; [reflexivity|]. rewrite extract_len by lia. lia.
  Qed.

  Lemma glyph_data_ret f' g r : same_but P f f' -> glyph_data f' (t_pos gl) locs set g = Ret r -> 0 <= loca_at F g ->
    0 <= g < glyph_count F /\ len r = len (glyph F g) /\ Forall is_byte r /\
    (composite (glyph F g) = false -> r = glyph F g) /\
    (composite (glyph F g) = true -> exists fields, components (glyph F g) 10 fields /\
       (forall p, In p fields -> u16 r p = new_number set (u16 (glyph F g) p) mod 65536) /\
       (forall q, 0 <= q < len (glyph F g) -> (forall p, In p fields -> q <> p /\ q <> p + 1) -> byte_at r q = byte_at (glyph F g) q)).
  Proof.
    intros S H H0. unfold glyph_data in H. obr H. obr H. apply Hlocs in E as [Hg ->]. apply Hlocs in E0 as [Hg1 ->].
    assert (Hgg : 0 <= g < glyph_count F) by lia. destruct (glyph_extract g Hgg H0) as (G1 & G2 & G3). obr H. apply rd_ret in E as (B0 & B1 & B2 & ->).
    pose proof P_in as PI.
    assert (X : extract f' (t_pos gl + loca_at F g) (loca_at F (g + 1) - loca_at F g) = glyph F g).
    { rewrite G1. eapply extract_same; [exact S|lia|lia|lia|]. lia. }
    rewrite X in H. pose proof S as (_ & SB & _). assert (GB : Forall is_byte (glyph F g)) by (rewrite <- X; now apply extract_bytes).
    split; [exact Hgg|]. obr H.
    assert (C : (2 <? loca_at F (g + 1) - loca_at F g) && (32768 <=? v) = composite (glyph F g)).
    { unfold composite. rewrite G2. destruct (2 <? loca_at F (g + 1) - loca_at F g) eqn:E2; [|reflexivity]. replace (0 <? loca_at F (g + 1) - loca_at F g) with true in E by lia.
      apply rd16_ret in E as (_ & _ & ->). reflexivity. }
    rewrite C in H. destruct (composite (glyph F g)) eqn:Ec.
    - pose proof (renumber_bytes _ _ _ _ _ GB H) as RB. apply renumber_ret in H as (L & fields & Cm & R1 & R2); [|lia]. split; [exact L|]. split; [exact RB|]. split; [discriminate|].
      intros _. exists fields. split; [exact Cm|]. split; [exact R1|]. intros q Hq. apply R2. lia.
    - injection H as <-. auto. split; [reflexivity|]. split; [exact GB|]. split; [reflexivity|discriminate].
  Qed.

  (** one glyph [d] with metrics [m] in the new font for glyph [g] *)
  Definition new_glyph (g : Z) (dm : bytes * bytes) : Prop :=
    0 <= g < glyph_count F /\ (exists body k, fst dm = body ++ repeat 0 k /\ (k < 4)%nat /\ len body = len (glyph F g) /\
      (composite (glyph F g) = false -> body = glyph F g) /\
      (composite (glyph F g) = true -> exists fields, components (glyph F g) 10 fields /\
       (forall p, In p fields -> u16 body p = new_number set (u16 (glyph F g) p) mod 65536) /\
       (forall q, 0 <= q < len (glyph F g) -> (forall p, In p fields -> q <> p /\ q <> p + 1) -> byte_at body q = byte_at (glyph F g) q))) /\
    len (fst dm) mod 4 = 0 /\ Forall is_byte (fst dm) /\ len (snd dm) = 4 /\ Forall is_byte (snd dm) /\
    u16 (snd dm) 0 = advance F g /\ (g <> count - 1 -> u16 (snd dm) 2 = bearing F g).

  Hypothesis Hloca0 : forall g, 0 <= g <= glyph_count F -> 0 <= loca_at F g.

  Lemma put_glyph_ret g s s' : same_but P f (g_file s) -> g_pos s mod 4 = 0 -> put_glyph dir count true (t_pos gl) locs set g s = Ret s' ->
    exists dm, new_glyph g dm /\ g_offsets s' = g_offsets s ++ [g_pos s] /\ g_glyf s' = g_glyf s ++ fst dm /\ g_pos s' = g_pos s + len (fst dm) /\
      g_hmtx s' = g_hmtx s ++ snd dm /\ same_but P f (g_file s') /\ g_pos s' mod 4 = 0 /\
      (g_file s = f -> u16 (snd dm) 2 = bearing F g) /\ (g < count -> g_file s' = g_file s).
  Proof.
    intros S Hm H. unfold put_glyph in H. obr H. destruct v as [m f2]. obr H. rename v into data.
    assert (Hg : 0 <= g < glyph_count F).
    { unfold glyph_data in E0. apply obind_ret in E0 as (a & E1 & E0). apply obind_ret in E0 as (b & E2 & E0). apply Hlocs in E1 as [E1 _]. apply Hlocs in E2 as [E2 _]. lia. }
    pose proof count_pos as CP. pose proof hmtx_size as HS.
    destruct (get_metrics_ret f (g_file s) dir h count g m f2 Hh Hh0 ltac:(lia) ltac:(lia) S E) as (M1 & M2 & M3 & M4 & M5 & M6).
    destruct (glyph_data_ret f2 g data M3 E0 (Hloca0 g ltac:(lia))) as (_ & D1 & D2 & D3 & D4).
    set (pos := g_pos s + len data) in *. set (pad := if pos mod 4 =? 0 then 0 else 4 - pos mod 4) in *.
    pose proof (Z.mod_pos_bound pos 4 ltac:(lia)) as MB.
    assert (Hpad : 0 <= pad < 4 /\ (pos + pad) mod 4 = 0).
    { unfold pad. destruct (pos mod 4 =? 0) eqn:E4; [rewrite Z.add_0_r; lia|]. split; [lia|]. rewrite (Z.div_mod pos 4) at 1 by lia.
      replace (4 * (pos / 4) + pos mod 4 + (4 - pos mod 4)) with ((pos / 4 + 1) * 4) by lia. apply Z.mod_mul. lia. }
    injection H as <-. exists (data ++ repeat 0 (Z.to_nat pad), m). cbn [fst snd g_offsets g_glyf g_pos g_hmtx g_file].
    assert (Lfst : len (data ++ repeat 0 (Z.to_nat pad)) = len data + pad) by (rewrite app_length, repeat_length; lia).
    split; [|split; [reflexivity|split; [reflexivity|split; [lia|split; [reflexivity|split; [exact M3|split; [lia|]]]]]]].
    - split; [exact Hg|]. cbn [fst snd]. split; [|split; [|split; [|split; [|split; [|split]]]]].
      + exists data, (Z.to_nat pad). split; [reflexivity|]. split; [lia|]. auto.
      + rewrite Lfst. replace (len data + pad) with (pos + pad - g_pos s) by (unfold pos; lia). rewrite Zminus_mod, Hm. replace ((pos + pad) mod 4) with 0 by lia. reflexivity.
      + apply Forall_app. split; [exact D2|apply repeat0_bytes].
      + exact M1.
      + exact M2.
      + rewrite M4. unfold advance. fold count. rewrite HFh. rewrite u16_extract; [reflexivity|lia| |]; destruct (g <? count) eqn:Eg; lia.
      + intros Hne. rewrite M5. unfold bearing. fold count. rewrite HFh. destruct (g <? count) eqn:Eg.
        * rewrite u16_extract by lia. rewrite Z.add_assoc. pose proof S as (_ & _ & SQ). apply u16_same; [lia| |]; apply SQ; unfold P; lia.
        * rewrite u16_extract by lia. f_equal. lia.
    - split; [|exact M6]. intros Ef. rewrite M5, Ef. unfold bearing. fold count. rewrite HFh. destruct (g <? count) eqn:Eg; rewrite u16_extract by lia; f_equal; lia.
  Qed.

  Lemma put_glyphs_ret l : forall s s', same_but P f (g_file s) -> g_pos s mod 4 = 0 -> put_glyphs dir count true (t_pos gl) locs set l s = Ret s' ->
    exists dms, Forall2 new_glyph l dms /\ g_offsets s' ++ [g_pos s'] = g_offsets s ++ offs (g_pos s) (map fst dms) /\
      g_glyf s' = g_glyf s ++ concat (map fst dms) /\ g_hmtx s' = g_hmtx s ++ concat (map snd dms) /\ g_pos s' = g_pos s + len (concat (map fst dms)) /\
      same_but P f (g_file s') /\ ((forall g, In g l -> g < count) -> g_file s = f -> Forall2 (fun g dm => u16 (snd dm) 2 = bearing F g) l dms) /\
      ((forall g, In g l -> g < count) -> g_file s' = g_file s).
  Proof.
    induction l as [|g l IH]; intros s s' S Hm H; cbn [put_glyphs] in H.
    - injection H as <-. exists []. cbn [map concat offs length]. rewrite !app_nil_r. split; [constructor|]. split; [reflexivity|]. split; [reflexivity|]. split; [reflexivity|]. split; [lia|]. split; [exact S|]. split; [constructor|reflexivity].
    - obr H. destruct (put_glyph_ret g s v S Hm E) as (dm & N & O1 & O2 & O3 & O4 & S' & Hm' & B1 & B2).
      destruct (IH _ _ S' Hm' H) as (dms & N' & O1' & O2' & O3' & O4' & S2 & B' & U'). exists (dm :: dms). cbn [map concat offs].
      split; [now constructor|]. split; [rewrite O1', O1, O3, <- app_assoc; reflexivity|]. split; [rewrite O2', O2, <- app_assoc; reflexivity|].
      split; [rewrite O3', O4, <- app_assoc; reflexivity|]. split; [rewrite O4', O3, app_length; lia|]. split; [exact S2|].
      split; [intros A Ef; constructor; [auto|]; apply B'; [intros x Hx; apply A; now right|]; rewrite B2; [exact Ef|]; apply A; now left|].
      intros A. rewrite U', B2; [reflexivity|apply A; now left|intros x Hx; apply A; now right].
  Qed.
End Glyphs.
