(** Reading the tables of a complete font with FontModel. *)
From Verif Require Import Base TtfSpec CutSpec CutModel CutProofs CutCmap CutRead FontSpec FontModel.
From Coq Require Import String.
Open Scope Z_scope.
Notation length := List.length.

Lemma range_cons i k : range i (S k) = i :: range (i + 1) k.
Proof.
  unfold range. cbn [seq map]. rewrite Z.add_0_r. f_equal. rewrite <- seq_shift, map_map. apply map_ext. intros. lia.
Qed.
Section Read.
  Variable f : bytes.
  Hypothesis Hf : Forall is_byte f.
  Lemma r16_in p n q : 0 <= p -> 0 <= q -> q + 2 <= n -> p + n <= len f -> r16 f (p + q) = u16 (extract f p n) q.
  Proof. intros. unfold r16, flen. replace (p + q + 2 <=? len f) with true by lia. now rewrite u16_extract by lia. Qed.
  Lemma ri16_in p n q : 0 <= p -> 0 <= q -> q + 2 <= n -> p + n <= len f -> ri16 f (p + q) = i16 (extract f p n) q.
  Proof. intros. unfold ri16, i16. now rewrite (r16_in p n q) by lia. Qed.
  Lemma r32_in p n q : 0 <= p -> 0 <= q -> q + 4 <= n -> p + n <= len f -> r32 f (p + q) = u32 (extract f p n) q.
  Proof. intros. unfold r32, flen. replace (p + q + 4 <=? len f) with true by lia. now rewrite u32_extract by lia. Qed.
  Lemma rstr_in p n q m : 0 <= p -> 0 <= q -> 0 <= m -> q + m <= n -> p + n <= len f -> rstr f (p + q) m = Some (extract (extract f p n) q m).
  Proof. intros. unfold rstr, flen. replace (p + q + m <=? len f) with true by lia. rewrite orb_true_r. now rewrite extract_extract by lia. Qed.

  (** the directory *)
  Lemma dir_ok k : forall i acc, 0 <= i -> 12 + 16 * (i + Z.of_nat k) <= len f ->
    dir_loop f k (12 + 16 * i) acc = Some (rev (map (fun j => (tag f j, toff f j)) (range i k)) ++ acc).
  Proof.
    induction k as [|k IH]; intros i acc Hi HL; [reflexivity|]. cbn [dir_loop]. unfold rstr, flen. replace (12 + 16 * i + 4 <=? len f) with true by lia. cbn [Z.eqb orb].
    replace (12 + 16 * i + 16) with (12 + 16 * (i + 1)) by lia. rewrite IH by lia. unfold r32, flen. replace (12 + 16 * i + 8 + 4 <=? len f) with true by lia.
    f_equal. rewrite range_cons. cbn [map rev]. rewrite <- app_assoc. reflexivity.
  Qed.
  Lemma place_in dir name o : In (name, o) dir -> (forall o', In (name, o') dir -> o' = o) -> place dir name = Some o.
  Proof.
    induction dir as [|[t q] dir IH]; intros H U; [destruct H|]. cbn [place]. destruct (beqb name t) eqn:E.
    - apply beqb_eq in E. subst t. f_equal. apply U. now left.
    - destruct H as [H|H]; [injection H as <- <-; rewrite beqb_refl in E; discriminate|]. apply IH; [exact H|]. intros o' Ho. apply U. now right.
  Qed.
  Lemma table_place name data : 12 + 16 * num_tables f <= len f -> table_in f name data ->
    exists o n, place (rev (map (fun j => (tag f j, toff f j)) (range 0 (Z.to_nat (num_tables f))))) (bs name) = Some o /\ data = extract f o n /\ 0 <= o /\ 0 <= n /\ o + n <= len f /\ len data = n.
  Proof.
    intros HL (i & Hi & Ht & Hd & Hb & U). exists (toff f i), (tlen f i). pose proof (u32_range f (12 + 16 * i + 8) Hf). pose proof (u32_range f (12 + 16 * i + 12) Hf).
    assert (0 <= toff f i) by (unfold toff; lia). assert (0 <= tlen f i) by (unfold tlen; lia).
    assert (IN : forall o, In (bs name, o) (rev (map (fun j => (tag f j, toff f j)) (range 0 (Z.to_nat (num_tables f))))) <-> o = toff f i).
    { intros o. rewrite <- in_rev, in_map_iff. split.
      - intros (j & E & Hj). injection E as E1 E2. apply in_range in Hj. rewrite <- (U j); [now symmetry|lia|exact E1].
      - intros ->. exists i. split; [now rewrite Ht|]. apply in_range. lia. }
    repeat split; try assumption.
    - apply place_in; [now apply IN|]. intros o'. apply IN.
    - now rewrite <- Hd.
    - rewrite <- Hd. now apply extract_len.
  Qed.

  (** the widths *)
  Lemma widths_ok o n T : T_hmtx T = extract f o n -> 0 <= o -> 0 <= n -> o + n <= len f -> 1 <= metrics_count T <= glyphs T -> 4 * metrics_count T <= n ->
    exists l, widths_of f o (metrics_count T) (glyphs T) = Ret l /\ len l = glyphs T /\ forall g, 0 <= g < glyphs T -> nth_error l (Z.to_nat g) = Some (advance_of T g).
  Proof.
    intros E Ho Hn Hb HM HH. unfold widths_of, advance_of. rewrite E. set (m := metrics_count T) in *. set (k := glyphs T) in *.
    assert (R : forall g, 0 <= g < m -> r16 f (o + 4 * g) = u16 (extract f o n) (4 * g)) by (intros; apply r16_in; lia).
    assert (FST : forall g, 0 <= g < m -> nth_error (map (fun j => r16 f (o + 4 * j)) (range 0 (Z.to_nat m))) (Z.to_nat g) = Some (u16 (extract f o n) (4 * g))).
    { intros g Hg. erewrite map_nth_error; [|apply range_nth; lia]. rewrite Z.add_0_l, Z2Nat.id by lia. f_equal. apply R. lia. }
    assert (LE : length (map (fun j => r16 f (o + 4 * j)) (range 0 (Z.to_nat m))) = Z.to_nat m) by now rewrite map_length, range_len.
    destruct (Z.ltb_spec m k) as [L|L].
    - replace (m =? 0) with false by lia. eexists. split; [reflexivity|]. split; [rewrite app_length, repeat_length, LE; lia|]. intros g Hg.
      destruct (Z.ltb_spec g m) as [G|G].
      + rewrite nth_error_app1 by (rewrite LE; lia). apply FST. lia.
      + rewrite nth_error_app2 by (rewrite LE; lia). rewrite LE, (R (m - 1)) by lia. rewrite (nth_error_nth' _ (u16 (extract f o n) (4 * (m - 1)))) by (rewrite repeat_length; lia). f_equal. now rewrite nth_repeat.
    - eexists. split; [reflexivity|]. split; [rewrite LE; lia|]. intros g Hg. replace (g <? m) with true by lia. apply FST. lia.
  Qed.

  (** the characters *)
  Lemma last_record_ok o n k : forall i found, 0 <= o -> 0 <= i -> 4 + 8 * (i + Z.of_nat k) <= n -> o + n <= len f -> forall v,
    (forall j, i <= j < i + Z.of_nat k -> u16 (extract f o n) (4 + 8 * j) = 3 -> u16 (extract f o n) (4 + 8 * j + 2) = 1 -> u32 (extract f o n) (4 + 8 * j + 4) = v) ->
    (found = v \/ exists j, i <= j < i + Z.of_nat k /\ u16 (extract f o n) (4 + 8 * j) = 3 /\ u16 (extract f o n) (4 + 8 * j + 2) = 1) ->
    last_record f k (o + 4 + 8 * i) found = v.
  Proof.
    induction k as [|k IH]; intros i found Ho Hi Hk Hb v U X.
    { cbn [last_record]. destruct X as [X|(j & Hj & _)]; [exact X|lia]. }
    cbn [last_record]. replace (o + 4 + 8 * i + 8) with (o + 4 + 8 * (i + 1)) by lia.
    replace (o + 4 + 8 * i) with (o + (4 + 8 * i)) by lia. replace (o + (4 + 8 * i) + 2) with (o + (4 + 8 * i + 2)) by lia. replace (o + (4 + 8 * i) + 4) with (o + (4 + 8 * i + 4)) by lia.
    rewrite !(r16_in o n) by lia. rewrite (r32_in o n) by lia. apply IH; try lia; [intros j Hj; apply U; lia|].
    destruct ((u16 (extract f o n) (4 + 8 * i) =? 3) && (u16 (extract f o n) (4 + 8 * i + 2) =? 1)) eqn:B.
    - left. apply U; lia.
    - destruct X as [X|(j & Hj & X)]; [now left|]. right. exists j. split; [|exact X]. destruct (Z.eq_dec j i) as [->|]; lia.
  Qed.

  (** the glyph the program finds for a character of a segment; 0: none *)
  Definition gid_at (c1 d ro p c : Z) : Z :=
    let g := if 0 <? ro then (let g := r16 f (p + 2 * (c - c1)) in if 0 <? g then g + d else g) else c + d in
    if 65536 <=? g then g - 65536 else g.
  Lemma chars_loop_ok k : forall c d ro p acc x, c <= 65535 ->
    chr (chars_loop f k c d ro p acc) x = if (c <=? x) && (x <? c + Z.of_nat k) && (x <? 65535) && (0 <? gid_at c d ro p x) then Some (gid_at c d ro p x mod 65536) else chr acc x.
  Proof.
    induction k as [|k IH]; intros c d ro p acc x Hc; [cbn [chars_loop]; replace (x <? c + Z.of_nat 0) with (x <? c) by lia; destruct (Z.leb_spec c x), (Z.ltb_spec x c); cbn; try lia; reflexivity|].
    cbn [chars_loop]. destruct (Z.eqb_spec c 65535) as [->|N].
    { replace ((65535 <=? x) && (x <? 65535 + Z.of_nat (S k)) && (x <? 65535)) with false by lia. reflexivity. }
    set (gp := if 0 <? ro then (let g := r16 f p in if 0 <? g then g + d else g, p + 2) else (c + d, p)).
    assert (G1 : (if 65536 <=? fst gp then fst gp - 65536 else fst gp) = gid_at c d ro p c).
    { unfold gp, gid_at. destruct (0 <? ro); cbn [fst]; [|reflexivity]. now replace (p + 2 * (c - c)) with p by lia. }
    assert (G2 : forall x, gid_at (c + 1) d ro (snd gp) x = gid_at c d ro p x).
    { intros y. unfold gp, gid_at. destruct (0 <? ro); cbn [snd]; [|reflexivity]. now replace (p + 2 + 2 * (y - (c + 1))) with (p + 2 * (y - c)) by lia. }
    destruct gp as [gid p'] eqn:GP. cbn [fst snd] in G1, G2. cbv zeta. rewrite G1, IH by lia. rewrite G2.
    destruct (Z.eq_dec x c) as [->|X].
    - replace ((c + 1 <=? c) && (c <? c + 1 + Z.of_nat k) && (c <? 65535)) with false by lia. replace ((c <=? c) && (c <? c + Z.of_nat (S k)) && (c <? 65535)) with true by lia. cbn [andb].
      destruct (0 <? gid_at c d ro p c); [cbn [chr]; now rewrite Z.eqb_refl|reflexivity].
    - replace ((c <=? x) && (x <? c + Z.of_nat (S k))) with ((c + 1 <=? x) && (x <? c + 1 + Z.of_nat k)) by lia.
      destruct ((c + 1 <=? x) && (x <? c + 1 + Z.of_nat k) && (x <? 65535) && (0 <? gid_at c d ro p x)); [reflexivity|].
      destruct (0 <? gid_at c d ro p c); [cbn [chr]; replace (x =? c) with false by lia; reflexivity|reflexivity].
  Qed.
  Definition seg_gid (q n j c : Z) : Z :=
    gid_at (r16 f (q + 16 + 2 * n + 2 * j)) (ri16 f (q + 16 + 4 * n + 2 * j)) (r16 f (q + 16 + 6 * n + 2 * j)) (q + 16 + 6 * n + 2 * j + r16 f (q + 16 + 6 * n + 2 * j)) c.
  Definition in_seg (q n j c : Z) : bool := (r16 f (q + 16 + 2 * n + 2 * j) <=? c) && (c <=? r16 f (q + 14 + 2 * j)).
  Lemma r16_range p : 0 <= r16 f p < 65536.
  Proof. unfold r16. destruct (_ <=? _); [|lia]. now apply u16_range. Qed.
  (** at most one segment has the character *)
  Lemma segs_loop_ok q n c k : c < 65535 -> forall j acc, (forall i, j <= i < j + Z.of_nat k -> in_seg q n i c = false) -> chr (segs_loop f k q n j acc) c = chr acc c.
  Proof.
    intros Hc. induction k as [|k IH]; intros j acc H; [reflexivity|]. cbn [segs_loop]. rewrite IH by (intros; apply H; lia). pose proof (r16_range (q + 16 + 2 * n + 2 * j)). rewrite chars_loop_ok by lia.
    specialize (H j ltac:(lia)). unfold in_seg in H. pose proof (r16_range (q + 14 + 2 * j)).
    match goal with |- context [if ?b then _ else _] => replace b with false by lia end. reflexivity.
  Qed.
  Lemma segs_loop_in q n c i : c < 65535 -> in_seg q n i c = true -> forall k j acc, j <= i < j + Z.of_nat k -> (forall i', j <= i' < j + Z.of_nat k -> i' <> i -> in_seg q n i' c = false) ->
    chr (segs_loop f k q n j acc) c = if 0 <? seg_gid q n i c then Some (seg_gid q n i c mod 65536) else chr acc c.
  Proof.
    intros Hc HI. induction k as [|k IH]; intros j acc Hi U; [lia|]. cbn [segs_loop]. pose proof (r16_range (q + 16 + 2 * n + 2 * j)). pose proof (r16_range (q + 14 + 2 * j)). destruct (Z.eq_dec j i) as [->|N].
    - rewrite (segs_loop_ok q n c k Hc) by (intros; apply U; lia). rewrite chars_loop_ok by lia. unfold in_seg in HI. fold (seg_gid q n i c).
      match goal with |- context [if ?b && (0 <? _) then _ else _] => replace b with true by lia end. reflexivity.
    - rewrite IH by (try lia; intros; apply U; lia). specialize (U j ltac:(lia) N). unfold in_seg in U. rewrite chars_loop_ok by lia.
      match goal with |- context [chr acc c] => idtac end. replace (_ && _ && (c <? 65535)) with false by lia. reflexivity.
  Qed.
End Read.

Section Cmap.
  Variable f : bytes.
  Hypothesis Hf : Forall is_byte f.
  Variables (p n o : Z).
  Hypothesis (Hp : 0 <= p) (Hn : 0 <= n) (Hl : p + n <= len f).
  Notation cm := (extract f p n).
  Hypothesis S : sound_segments cm o.
  Hypothesis W : windows_map cm o.
  Lemma cm_bytes : Forall is_byte cm. Proof. now apply extract_bytes. Qed.
  Lemma cm_len : len cm = n. Proof. apply extract_len; lia. Qed.
  Lemma o_pos : 4 <= o. Proof. destruct (ss_records _ _ S). pose proof (u16_range cm 2 cm_bytes). lia. Qed.
  Lemma sub_at q : 0 <= q -> q + 2 <= u16 cm (o + 2) -> r16 f (p + o + q) = u16 cm (o + q).
  Proof. intros Hq H. pose proof (ss_length _ _ S) as [_ L]. rewrite cm_len in L. pose proof o_pos. replace (p + o + q) with (p + (o + q)) by lia. apply r16_in; lia. Qed.
  Notation sx2 := (u16 cm (o + 6)).
  Notation k := (sx2 / 2).
  Lemma k2 : 2 * k = sx2. Proof. pose proof (ss_even _ _ S). pose proof (Z.div_mod sx2 2 ltac:(lia)). lia. Qed.
  Lemma k_pos : 0 <= k. Proof. pose proof (u16_range cm (o + 6) cm_bytes). lia. Qed.
  Lemma seg_fields i : 0 <= i < k ->
    r16 f (p + o + 14 + 2 * i) = seg_end_of cm o i /\ r16 f (p + o + 16 + 2 * k + 2 * i) = seg_start_of cm o i /\
    r16 f (p + o + 16 + 4 * k + 2 * i) = u16 cm (o + 16 + 2 * sx2 + 2 * i) /\ r16 f (p + o + 16 + 6 * k + 2 * i) = u16 cm (o + 16 + 3 * sx2 + 2 * i).
  Proof.
    intros Hi. pose proof (ss_length _ _ S) as [L _]. pose proof k2 as K. unfold seg_end_of, seg_start_of.
    replace (p + o + 14 + 2 * i) with (p + o + (14 + 2 * i)) by lia. replace (p + o + 16 + 2 * k + 2 * i) with (p + o + (16 + sx2 + 2 * i)) by lia.
    replace (p + o + 16 + 4 * k + 2 * i) with (p + o + (16 + 2 * sx2 + 2 * i)) by lia. replace (p + o + 16 + 6 * k + 2 * i) with (p + o + (16 + 3 * sx2 + 2 * i)) by lia.
    rewrite !sub_at by lia. repeat split; f_equal; lia.
  Qed.
  Lemma in_seg_iff i c : 0 <= i < k -> in_seg f (p + o) k i c = true <-> seg_start_of cm o i <= c <= seg_end_of cm o i.
  Proof. intros Hi. destruct (seg_fields i Hi) as (A & B & _). unfold in_seg. rewrite A, B. lia. Qed.
  Lemma lookup_none c : 0 <= c <= 65535 -> (forall i, 0 <= i < k -> in_seg f (p + o) k i c = false) -> lookup4 cm o c = 0.
  Proof.
    intros Hc H. unfold lookup4. destruct (find_segment cm (o + 14) (Z.to_nat k) 0 c) as [r|] eqn:Er; [|reflexivity]. apply find_segment_some in Er as (R1 & R2 & R3).
    specialize (H r ltac:(lia)). assert (~ (seg_start_of cm o r <= c <= seg_end_of cm o r)) by (intros X; apply in_seg_iff in X; [congruence|lia]). unfold seg_start_of, seg_end_of in *.
    replace (c <? u16 cm (o + 16 + sx2 + 2 * r)) with true by lia. reflexivity.
  Qed.
  Lemma lookup_some c i : 0 <= c <= 65535 -> 0 <= i < k -> in_seg f (p + o) k i c = true ->
    lookup4 cm o c = (if u16 cm (o + 16 + 3 * sx2 + 2 * i) =? 0 then (c + u16 cm (o + 16 + 2 * sx2 + 2 * i)) mod 65536
                      else let g := u16 cm (o + 16 + 3 * sx2 + 2 * i + u16 cm (o + 16 + 3 * sx2 + 2 * i) + 2 * (c - seg_start_of cm o i)) in
                           if g =? 0 then 0 else (g + u16 cm (o + 16 + 2 * sx2 + 2 * i)) mod 65536) /\
    forall j, 0 <= j < k -> j <> i -> in_seg f (p + o) k j c = false.
  Proof.
    intros Hc Hi HI. pose proof HI as HS. apply in_seg_iff in HS; [|exact Hi]. split.
    - unfold lookup4. destruct (find_segment cm (o + 14) (Z.to_nat k) 0 c) as [r|] eqn:Er.
      2: { pose proof (find_segment_none _ _ _ _ _ Er i ltac:(lia)). unfold seg_end_of in HS. lia. }
      apply find_segment_some in Er as (R1 & R2 & R3).
      assert (r = i).
      { destruct (Z.lt_trichotomy r i) as [Hlt|[Heq|Hgt]]; [|exact Heq|].
        - pose proof (ss_apart cm o S r i ltac:(lia) ltac:(lia)) as AP. unfold seg_end_of, seg_start_of in *. lia.
        - specialize (R3 i ltac:(lia)). unfold seg_end_of in HS. lia. }
      subst r. unfold seg_start_of in *. replace (c <? u16 cm (o + 16 + sx2 + 2 * i)) with false by lia. reflexivity.
    - intros j Hj N. destruct (in_seg f (p + o) k j c) eqn:E; [|reflexivity]. apply in_seg_iff in E; [|exact Hj]. destruct (Z.lt_trichotomy i j) as [L|[L|L]]; [|lia|].
      + pose proof (ss_apart cm o S i j ltac:(lia) ltac:(lia)). lia.
      + pose proof (ss_apart cm o S j i ltac:(lia) ltac:(lia)). lia.
  Qed.
  (** the glyph found is the one of the map, or negative when that is 32768 or more *)
  Lemma seg_gid_ok c i : 0 <= c < 65535 -> 0 <= i < k -> in_seg f (p + o) k i c = true -> 
    let g := seg_gid f (p + o) k i c in (0 <= g <= 65535 /\ g = lookup4 cm o c) \/ (g < 0 /\ g + 65536 = lookup4 cm o c /\ 32768 <= lookup4 cm o c).
  Proof.
    intros Hc Hi HI. destruct (lookup_some c i ltac:(lia) Hi HI) as [-> _]. apply in_seg_iff in HI; [|exact Hi].
    destruct (seg_fields i Hi) as (_ & F2 & F3 & F4). unfold seg_gid, ri16. rewrite F2, F3, F4.
    pose proof (u16_range cm (o + 16 + 2 * sx2 + 2 * i) cm_bytes) as RD. pose proof (u16_range cm (o + 16 + 3 * sx2 + 2 * i) cm_bytes) as RR.
    set (d := u16 cm (o + 16 + 2 * sx2 + 2 * i)) in *. set (ro := u16 cm (o + 16 + 3 * sx2 + 2 * i)) in *. unfold gid_at.
    destruct (Z.eqb_spec ro 0) as [Z0|Z0].
    - replace (0 <? ro) with false by lia. cbv zeta. destruct (Z.ltb_spec d 32768) as [D|D]; [destruct (Z.leb_spec 65536 (c + d))|destruct (Z.leb_spec 65536 (c + (d - 65536)))]; lia.
    - replace (0 <? ro) with true by lia. pose proof (ss_range _ _ S i Hi) as [G|G]; [exfalso; apply Z0; unfold ro; rewrite <- G; f_equal; lia|]. cbv zeta in G. pose proof k2 as K.
      replace (u16 cm (o + (16 + 3 * sx2 + 2 * i))) with ro in G by (unfold ro; f_equal; lia).
      replace (p + o + 16 + 6 * k + 2 * i + ro + 2 * (c - seg_start_of cm o i)) with (p + o + (16 + 3 * sx2 + 2 * i + ro + 2 * (c - seg_start_of cm o i))) by lia.
      rewrite sub_at by (pose proof (u16_range cm (o + 6) cm_bytes); lia).
      replace (o + (16 + 3 * sx2 + 2 * i + ro + 2 * (c - seg_start_of cm o i))) with (o + 16 + 3 * sx2 + 2 * i + ro + 2 * (c - seg_start_of cm o i)) by lia.
      pose proof (u16_range cm (o + 16 + 3 * sx2 + 2 * i + ro + 2 * (c - seg_start_of cm o i)) cm_bytes) as RG. set (g := u16 cm (o + 16 + 3 * sx2 + 2 * i + ro + 2 * (c - seg_start_of cm o i))) in *.
      destruct (Z.eqb_spec g 0) as [->|G0]; [cbn; lia|]. replace (0 <? g) with true by lia. cbv zeta.
      destruct (Z.ltb_spec d 32768) as [D|D]; [destruct (Z.leb_spec 65536 (g + d))|destruct (Z.leb_spec 65536 (g + (d - 65536)))]; lia.
  Qed.
  Lemma chars_ok : exists l, chars_of f p = Some l /\
    forall c, 0 <= c < 65535 -> lookup4 cm o c < 32768 -> chr l c = (if lookup4 cm o c =? 0 then None else Some (lookup4 cm o c)).
  Proof.
    destruct (ss_records _ _ S) as [R1 R2]. rewrite cm_len in R1. destruct W as [(i0 & W1) W2]. pose proof (ss_length _ _ S) as [L1 L2]. rewrite cm_len in L2.
    pose proof (u16_range cm 2 cm_bytes) as U2. pose proof o_pos as OP. pose proof (u16_range cm (o + 6) cm_bytes) as U6.
    assert (Q : last_record f (Z.to_nat (r16 f (p + 2))) (p + 4) 0 = o).
    { rewrite (r16_in f p n 2) by lia. replace (p + 4) with (p + 4 + 8 * 0) by lia. apply (last_record_ok f p n); try lia.
      - intros j Hj. apply W2. lia.
      - right. exists i0. split; [lia|apply W1]. }
    pose proof (sub_at 0 ltac:(lia) ltac:(lia)) as FM. rewrite !Z.add_0_r, (ss_format _ _ S) in FM.
    unfold chars_of. rewrite Q. replace (o =? 0) with false by lia. cbv zeta. rewrite FM. change (negb (4 =? 4)) with false. cbv iota. rewrite (sub_at 6) by lia. eexists. split; [reflexivity|]. intros c Hc Hg.
    destruct (forallb (fun i => negb (in_seg f (p + o) k i c)) (range 0 (Z.to_nat k))) eqn:A.
    - rewrite forallb_forall in A. assert (NO : forall i, 0 <= i < k -> in_seg f (p + o) k i c = false).
      { intros i Hi. specialize (A i). rewrite in_range in A. specialize (A ltac:(lia)). now apply negb_true_iff in A. }
      rewrite (segs_loop_ok f Hf) by (try lia; intros; apply NO; pose proof k_pos; lia). rewrite lookup_none by (try lia; assumption). reflexivity.
    - assert (X : exists i, 0 <= i < k /\ in_seg f (p + o) k i c = true).
      { assert (Y : existsb (fun i => in_seg f (p + o) k i c) (range 0 (Z.to_nat k)) = true).
        { clear - A. induction (range 0 (Z.to_nat k)) as [|a l IH]; [discriminate|]. cbn [forallb existsb] in *. destruct (in_seg f (p + o) k a c); [reflexivity|]. cbn in A. now apply IH. }
        apply existsb_exists in Y as (i & Hi & Y). apply in_range in Hi. exists i. split; [lia|exact Y]. }
      destruct X as (i & Hi & X). destruct (lookup_some c i ltac:(lia) Hi X) as [_ U].
      rewrite (segs_loop_in f Hf (p + o) k c i ltac:(lia) X); [|lia|intros i' Hi' NE; apply U; [lia|exact NE]]. cbn [chr].
      destruct (seg_gid_ok c i Hc Hi X) as [[G1 G2]|(G1 & G2 & G3)]; [|lia]. rewrite G2 in *. destruct (Z.ltb_spec 0 (lookup4 cm o c)), (Z.eqb_spec (lookup4 cm o c) 0); try lia; [|reflexivity]. f_equal. apply Z.mod_small. lia.
  Qed.
End Cmap.

(** the name *)
Lemma name_filter s : filter (fun c => negb (existsb (Z.eqb c) (bs "(){}<> /%[]"))) (filter (fun c => negb (c =? 0)) s) = filter name_byte s.
Proof.
  induction s as [|c s IH]; [reflexivity|]. cbn [filter]. unfold name_byte at 1. cbn [existsb]. destruct (c =? 0); cbn [negb orb filter]; [exact IH|].
  change (existsb (Z.eqb c) (bs "(){}<> /%[]")) with (existsb (Z.eqb c) (bs "(){}<> /%[]")). 
  match goal with |- (if ?a then _ else _) = (if ?b then _ else _) => change b with a; destruct a end; now rewrite IH.
Qed.
Lemma name_ok f p n name : Forall is_byte f -> 0 <= p -> 0 <= n -> p + n <= len f -> postscript_name (extract f p n) name -> name_of f p = Some name.
Proof.
  intros Hf Hp Hn Hl (i & Hi & HL & H6 & HU & HB & HN & HE). set (s := extract f p n) in *. assert (SB : Forall is_byte s) by now apply extract_bytes. assert (SL : len s = n) by (apply extract_len; lia).
  unfold name_of. rewrite (r16_in f p n 4), (r16_in f p n 2) by lia. fold s.
  assert (G : forall k j, 0 <= j <= i -> i < j + Z.of_nat k -> j + Z.of_nat k <= u16 s 2 -> name_from f (p + u16 s 4) k (p + 6 + 12 * j) = Some name).
  { induction k as [|k IH]; intros j Hj Hk Hk2; [lia|]. cbn [name_from].
    assert (AT : forall q, 0 <= q -> q + 2 <= 12 -> r16 f (p + 6 + 12 * j + q) = u16 s (6 + 12 * j + q)).
    { intros q Hq Hq2. replace (p + 6 + 12 * j + q) with (p + (6 + 12 * j + q)) by lia. apply r16_in; lia. }
    rewrite !AT by lia. destruct (Z.eq_dec j i) as [->|N].
    - rewrite H6. cbn [Z.eqb]. change (Pos.eqb 6 6) with true. cbv iota.
      pose proof (u16_range s 4 SB). pose proof (u16_range s (6 + 12 * i + 10) SB). pose proof (u16_range s (6 + 12 * i + 8) SB).
      replace (p + u16 s 4 + u16 s (6 + 12 * i + 10)) with (p + (u16 s 4 + u16 s (6 + 12 * i + 10))) by lia.
      rewrite (rstr_in f p n) by lia. fold s. cbv zeta. rewrite name_filter. rewrite HN in *. destruct (beqb _ []) eqn:B; [|reflexivity]. apply beqb_eq in B. contradiction.
    - specialize (HU j ltac:(lia)). replace (u16 s (6 + 12 * j + 6) =? 6) with false by lia. replace (p + 6 + 12 * j + 12) with (p + 6 + 12 * (j + 1)) by lia. apply IH; lia. }
  specialize (G (Z.to_nat (u16 s 2)) 0 ltac:(lia) ltac:(lia) ltac:(lia)). replace (p + 6) with (p + 6 + 12 * 0) by lia. exact G.
Qed.
