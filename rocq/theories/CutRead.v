(** The directory, the places of the glyphs and the metrics of a font file. *)
From Verif Require Import Base DocModel TtfSpec TtfModel TtfProofs CutSpec CutModel CutProofs.
From Coq Require Import String Permutation.
Open Scope Z_scope.
Notation length := List.length.

Lemma u32_range f p : Forall is_byte f -> 0 <= u32 f p < 2 ^ 32.
Proof. intros H. unfold u32. pose proof (u16_range f p H). pose proof (u16_range f (p + 2) H). change (2 ^ 32) with (65536 * 65536). nia. Qed.

(** ** the directory *)
Definition placed (f : bytes) (name : string) (p n : Z) : Prop :=
  exists i, 0 <= i < num_tables f /\ tag f i = bs name /\ toff f i = p /\ tlen f i = n.
Lemma read_entry_ret f i e : read_entry f i = Ret e -> e = (tag f i, {| t_pos := toff f i; t_size := tlen f i |}).
Proof.
  unfold read_entry. intros H. obr H. obr H. obr H. obr H. injection H as <-.
  apply rd_ret in E as (_ & _ & _ & ->). apply rd32_ret in E1 as (_ & _ & ->). apply rd32_ret in E2 as (_ & _ & ->). reflexivity.
Qed.
Lemma read_dir_in f dir : Forall is_byte f -> read_dir f = Ret dir -> forall e, In e dir <->
  exists i, 0 <= i < num_tables f /\ e = (tag f i, {| t_pos := toff f i; t_size := tlen f i |}).
Proof.
  intros Hf H e. unfold read_dir in H. obr H. apply rd16_ret in E as (_ & _ & ->). obr H. obr H. injection H as <-. apply omap_ret in E0.
  pose proof (u16_range f 4 Hf) as U. fold (num_tables f) in *. rewrite <- in_rev. split.
  - intros Hi. apply In_nth_error in Hi as (k & Hk). destruct (Forall2_nth' _ _ _ E0 _ _ Hk) as (i & Hi & R). apply nth_error_In, in_range in Hi.
    exists i. split; [lia|]. now apply read_entry_ret.
  - intros (i & Hi & ->). destruct (Forall2_nth _ _ _ E0 (Z.to_nat i) i) as (b & Hb & R).
    { rewrite range_nth by lia. f_equal. lia. }
    apply read_entry_ret in R. subst b. eapply nth_error_In, Hb.
Qed.
Lemma find_desc_some f dir name d : Forall is_byte f -> read_dir f = Ret dir -> find_desc dir (bs name) = Some d ->
  placed f name (t_pos d) (t_size d).
Proof.
  intros Hf H. unfold find_desc. destruct (find _ dir) as [e|] eqn:E; [|discriminate]. intros X. injection X as <-.
  apply find_some in E as [I B]. apply beqb_eq in B. apply (read_dir_in f dir Hf H) in I as (i & Hi & ->). exists i. auto.
Qed.
Lemma find_desc_in f dir name data : Forall is_byte f -> read_dir f = Ret dir -> table_in f name data -> exists d,
  find_desc dir (bs name) = Some d /\ placed f name (t_pos d) (t_size d) /\ 0 <= t_pos d /\ 0 <= t_size d /\ t_pos d + t_size d <= len f /\ data = extract f (t_pos d) (t_size d).
Proof.
  intros Hf H (i & Hi & T & D & B & U).
  assert (X : exists d, find_desc dir (bs name) = Some d).
  { unfold find_desc. destruct (find _ dir) as [e|] eqn:E; [eexists; reflexivity|].
    pose proof (find_none _ _ E (tag f i, {| t_pos := toff f i; t_size := tlen f i |})) as N. cbn [fst] in N. rewrite T, beqb_refl in N.
    assert (false = true); [|discriminate]. symmetry. apply N. apply (read_dir_in f dir Hf H). exists i. now rewrite T. }
  destruct X as (d & X). exists d. split; [exact X|]. destruct (find_desc_some f dir name d Hf H X) as (j & Hj & Tj & P & L).
  assert (j = i) by (apply U; auto). subst j. rewrite <- P, <- L. pose proof (u32_range f (12 + 16 * i + 8) Hf). pose proof (u32_range f (12 + 16 * i + 12) Hf).
  split; [exists i; auto|]. split; [unfold toff; lia|]. split; [unfold tlen; lia|]. split; [exact B|]. now symmetry.
Qed.
Lemma placed_apart f a b p n p' n' : separate_tables f -> bs a <> bs b -> placed f a p n -> placed f b p' n' -> p + n <= p' \/ p' + n' <= p.
Proof.
  intros S N (i & Hi & Ti & <- & <-) (j & Hj & Tj & <- & <-). apply S; auto. intros ->. congruence.
Qed.
Lemma seek_some dir name d : find_desc dir (bs name) = Some d -> seek_table dir name = Ret (t_pos d).
Proof. unfold seek_table. now intros ->. Qed.
Lemma table_data_bytes f dir name t : Forall is_byte f -> table_data f dir name = Ret (Some t) -> Forall is_byte t.
Proof.
  intros Hf. unfold table_data. destruct (find_desc dir (bs name)) as [d|]; [|discriminate]. destruct (t_size d =? 0); [discriminate|]. intros H. obr H. injection H as <-.
  apply rd_ret in E as (_ & _ & _ & ->). now apply extract_bytes.
Qed.

(** ** two bytes of the file may change *)
Definition same_but (P : Z) (f f' : bytes) : Prop :=
  len f' = len f /\ Forall is_byte f' /\ forall q, 0 <= q -> q <> P -> q <> P + 1 -> byte_at f' q = byte_at f q.
Lemma extract_same P f f' p n : same_but P f f' -> 0 <= p -> 0 <= n -> p + n <= len f -> P + 2 <= p \/ p + n <= P -> extract f' p n = extract f p n.
Proof. intros (L & _ & H) Hp Hn Hl A. apply extract_ext; [lia|lia|lia|lia|]. intros q Hq. apply H; lia. Qed.
Lemma overwrite_byte f p v : 0 <= p -> p + len v <= len f -> len (overwrite f p v) = len f /\
  forall q, 0 <= q -> q < p \/ p + len v <= q -> byte_at (overwrite f p v) q = byte_at f q.
Proof.
  intros Hp Hl. unfold overwrite. split; [rewrite !app_length, firstn_length_le, skipn_length by lia; lia|].
  unfold byte_at. intros q Hq [H|H].
  - rewrite app_nth1 by (rewrite firstn_length_le; lia). apply nth_firstn_. lia.
  - rewrite app_nth2 by (rewrite firstn_length_le; lia). rewrite app_nth2 by (rewrite firstn_length_le; lia). rewrite nth_skipn_, firstn_length_le by lia. f_equal. lia.
Qed.
Lemma overwrite_bytes f p v : Forall is_byte f -> Forall is_byte v -> Forall is_byte (overwrite f p v).
Proof.
  intros Hf Hv. unfold overwrite. apply Forall_app. split; [|apply Forall_app; split; [exact Hv|]].
  - rewrite <- (firstn_skipn (Z.to_nat p) f) in Hf. now apply Forall_app in Hf.
  - rewrite <- (firstn_skipn (Z.to_nat p + length v) f) in Hf. now apply Forall_app in Hf.
Qed.

(** ** metrics *)
Lemma get_metrics_ret f f' dir h count g m f2 : let P := t_pos h + 4 * (count - 1) + 2 in
  find_desc dir (bs "hmtx") = Some h -> 0 <= t_pos h -> 1 <= count -> 0 <= g -> same_but P f f' -> get_metrics f' dir count g = Ret (m, f2) ->
  len m = 4 /\ Forall is_byte m /\ same_but P f f2 /\ u16 m 0 = u16 f (t_pos h + 4 * (if g <? count then g else count - 1)) /\
  u16 m 2 = (if g <? count then u16 f' (t_pos h + 4 * g + 2) else u16 f (t_pos h + 4 * count + 2 * (g - count))) /\ (g < count -> f2 = f').
Proof.
  intros P Hh Hp Hc Hg S H. unfold get_metrics in H. rewrite (seek_some _ _ _ Hh) in H. cbn [obind] in H. pose proof S as (SL & SB & SQ).
  destruct (g <? count) eqn:Eg.
  - obr H. injection H as <- <-. apply rd_ret in E as (_ & _ & E3 & ->). split; [now apply extract_len; lia|]. split; [now apply extract_bytes|]. split; [exact S|].
    split; [|split; [|reflexivity]].
    + rewrite u16_extract by lia. rewrite Z.add_0_r. replace (t_pos h + g * 4) with (t_pos h + 4 * g) by lia. apply u16_same; [lia| |]; apply SQ; lia.
    + rewrite u16_extract by lia. f_equal. lia.
  - obr H. obr H. injection H as <- <-. apply rd_ret in E as (B0 & _ & B1 & ->). apply rd_ret in E0 as (B2 & _ & B3 & ->).
    set (a := extract f' (t_pos h + (count - 1) * 4) 2) in *. set (b := extract f' (t_pos h + count * 2 + g * 2) 2) in *.
    assert (La : len a = 2) by (apply extract_len; lia). assert (Lb : len b = 2) by (apply extract_len; lia).
    assert (Fa : Forall is_byte a) by now apply extract_bytes. assert (Fb : Forall is_byte b) by now apply extract_bytes.
    split; [rewrite app_length; lia|]. split; [apply Forall_app; auto|]. split.
    + destruct (t_pos h + (count - 1) * 4 + 4 <=? len f') eqn:El; [|exact S].
      destruct (overwrite_byte f' (t_pos h + (count - 1) * 4 + 2) b) as [L1 L2]; [lia|lia|]. split; [lia|]. split; [now apply overwrite_bytes|].
      intros q Hq N1 N2. rewrite L2; [now apply SQ|exact Hq|]. unfold P in *. lia.
    + assert (U0 : u16 (a ++ b) 0 = u16 a 0).
      { unfold u16, byte_at. change (Z.to_nat 0) with 0%nat. change (Z.to_nat (0 + 1)) with 1%nat. rewrite !app_nth1 by lia. reflexivity. }
      assert (U2 : u16 (a ++ b) 2 = u16 b 0). { rewrite <- La at 1. rewrite <- (Z.add_0_r (len a)). apply u16_app. lia. }
      split; [|split; [|lia]].
      * rewrite U0. unfold a. rewrite u16_extract by lia. rewrite Z.add_0_r. replace (t_pos h + (count - 1) * 4) with (t_pos h + 4 * (count - 1)) by lia. apply u16_same; [lia| |]; apply SQ; lia.
      * rewrite U2. unfold b. rewrite u16_extract by lia. rewrite Z.add_0_r. replace (t_pos h + count * 2 + g * 2) with (t_pos h + 4 * count + 2 * (g - count)) by lia. apply u16_same; [lia| |]; apply SQ; unfold P; lia.
Qed.

(** ** the places of the glyphs *)
Lemma loc_ret locs g p : loc locs g = Ret p <-> 0 <= g /\ nth_error locs (Z.to_nat g) = Some p.
Proof.
  unfold loc. destruct (g <? 0) eqn:E.
  - split; [discriminate|]. intros [? _]. lia.
  - destruct (nth_error locs (Z.to_nat g)) as [v|]; split; intros H; try discriminate.
    + injection H as <-. split; [lia|reflexivity].
    + destruct H as [_ H]. injection H as <-. reflexivity.
    + destruct H as [_ H]. discriminate.
Qed.
Lemma parse_loca_ret f dir l F locs : find_desc dir (bs "loca") = Some l -> F_loca F = extract f (t_pos l) (t_size l) ->
  0 <= t_pos l -> 0 <= t_size l -> t_pos l + t_size l <= len f -> sound_glyphs F -> 0 <= glyph_count F ->
  parse_loca f dir (u16 (F_head F) 50) (glyph_count F) = Ret locs ->
  forall g p, loc locs g = Ret p <-> 0 <= g <= glyph_count F /\ p = loca_at F g.
Proof.
  intros Hl HF Hp Hn Hb S Hc H g p. unfold parse_loca in H. rewrite (seek_some _ _ _ Hl) in H. cbn [obind] in H.
  pose proof (sg_loca F S) as SL. rewrite HF in SL. rewrite extract_len in SL by lia. unfold loca_at. rewrite loc_ret.
  assert (GEN : forall (k : Z) (rdk : Z -> outcome Z) (val : Z -> Z), omap rdk (range 0 (Z.to_nat (glyph_count F + 1))) = Ret locs ->
     (forall i v, 0 <= i <= glyph_count F -> rdk i = Ret v -> v = val i) -> (0 <= g /\ nth_error locs (Z.to_nat g) = Some p <-> 0 <= g <= glyph_count F /\ p = val g)).
  { intros k rdk val Ho Hv. apply omap_ret in Ho. split.
    - intros [Hg Hn']. destruct (Forall2_nth' _ _ _ Ho _ _ Hn') as (i & Hi & R). assert (I := nth_error_In _ _ Hi). apply in_range in I.
      assert (X : (Z.to_nat g < Z.to_nat (glyph_count F + 1))%nat) by (rewrite <- (range_len 0 (Z.to_nat (glyph_count F + 1))); apply nth_error_Some; congruence).
      rewrite range_nth in Hi by exact X. injection Hi as <-. rewrite ?Z.add_0_l, Z2Nat.id in R by lia. split; [lia|]. apply Hv; [lia|exact R].
    - intros [Hg ->]. split; [lia|]. destruct (Forall2_nth _ _ _ Ho (Z.to_nat g) g) as (b & Hb' & R).
      { rewrite range_nth by lia. f_equal. lia. }
      rewrite Hb'. f_equal. apply Hv; [lia|exact R]. }
  destruct (sg_format F S) as [E|E]; rewrite E in *; cbn [Z.eqb Pos.eqb] in *.
  - obr H. apply (GEN 2 _ (fun g => 2 * u16 (F_loca F) (2 * g)) H). intros i v' Hi R. obr R. apply rd16_ret in E1 as (_ & _ & ->). injection R as <-.
    cbn beta. rewrite HF, u16_extract by lia. apply Z.mul_comm.
  - obr H. apply (GEN 4 _ (fun g => u32 (F_loca F) (4 * g)) H). intros i v' Hi R. apply rd32_ret in R as (_ & _ & ->). rewrite HF, u32_extract by lia. reflexivity.
Qed.
