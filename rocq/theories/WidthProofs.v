(** The width table of a font. *)
From Verif Require Import Base DocModel TtfSpec TtfModel TtfProofs CutSpec CutModel CutProofs CutRead CutSymbols CutCmap WidthModel.
From Coq Require Import String.
Open Scope Z_scope.
Notation length := List.length.
Notation concat := List.concat.

Lemma upto_range k : forall a, upto a k = range a k.
Proof. induction k as [|k IH]; intros a; [reflexivity|]. rewrite range_S. cbn [upto]. now rewrite IH. Qed.
(** a width as it is stored *)
Definition stored (w : Z) : Z := if w =? 0 then 65535 else w.
Section Widths.
  Variables (sc : Z -> Z) (pairs : list (Z * Z)).
  Hypothesis Prange : Forall (fun p => 0 <= fst p <= 65535 /\ 0 <= snd p <= 65535) pairs.
  Hypothesis Pone : forall c g g', In (c, g) pairs -> In (c, g') pairs -> g = g'.

  Lemma chars_in g c : In c (chars_of pairs g) <-> In (c, g) pairs.
  Proof.
    unfold chars_of. rewrite in_map_iff. split.
    - intros ([c' g'] & <- & H). apply filter_In in H as [H E]. cbn in E. apply Z.eqb_eq in E. now subst g'.
    - intros H. exists (c, g). split; [reflexivity|]. apply filter_In. split; [exact H|]. apply Z.eqb_refl.
  Qed.
  Lemma put_chars aw chars : Forall (fun c => 0 <= c <= 65535) chars -> forall st, exists st', ofold (put_width sc aw) chars st = Ret st' /\
    forall c, w_at st' c = if existsb (Z.eqb c) chars && negb (c =? 0) && negb (c =? 65535) then stored (sc aw) else w_at st c.
  Proof.
    intros HF. induction HF as [|x l Hx HF IH]; intros st.
    - exists st. split; reflexivity.
    - cbn [ofold]. unfold put_width at 1. fold (stored (sc aw)). destruct ((x =? 0) || (x =? 65535)) eqn:E.
      + destruct (IH st) as (st' & E' & S). exists st'. split; [exact E'|]. intros c. rewrite S. cbn [existsb]. destruct (c =? x) eqn:Ec; [|reflexivity].
        apply Z.eqb_eq in Ec. subst x. cbn [orb andb]. replace (negb (c =? 0) && negb (c =? 65535)) with false by lia. rewrite <- andb_assoc. replace (negb (c =? 0) && negb (c =? 65535)) with false by lia. now rewrite andb_false_r.
      + replace (x <? 196608) with true by lia. replace (x <? 65536) with true by lia. cbn [obind].
        match goal with |- context [ofold _ l ?s] => destruct (IH s) as (st' & E' & S) end. exists st'. split; [exact E'|]. intros c. rewrite S. cbn [existsb w_at].
        destruct (c =? x) eqn:Ec; [|reflexivity]. apply Z.eqb_eq in Ec. subst x. cbn [orb andb]. replace (negb (c =? 0)) with true by lia. replace (negb (c =? 65535)) with true by lia.
        destruct (existsb _ _); reflexivity.
  Qed.
  (** the table after the glyphs before [k] *)
  Definition entered (aw : Z -> Z) (k : Z) (st : widths) : Prop := forall c,
    (c = 0 \/ c = 65535 -> w_at st c = 0) /\
    (forall g, In (c, g) pairs -> c <> 0 -> c <> 65535 -> 1 <= g < k -> w_at st c = stored (sc (aw g))) /\
    ((forall g, In (c, g) pairs -> ~ 1 <= g < k) -> w_at st c = 0).
  Lemma put_symbol aw a k st : 1 <= k -> entered aw k st -> a = aw k -> exists st', ofold (put_width sc a) (chars_of pairs k) st = Ret st' /\ entered aw (k + 1) st'.
  Proof.
    intros Hk H ->. destruct (put_chars (aw k) (chars_of pairs k)) with (st := st) as (st' & E & S).
    { apply Forall_forall. intros c Hc. apply chars_in in Hc. rewrite Forall_forall in Prange. exact (proj1 (Prange _ Hc)). }
    exists st'. split; [exact E|]. intros c. destruct (H c) as (H1 & H2 & H3). rewrite S.
    assert (X : existsb (Z.eqb c) (chars_of pairs k) = true <-> In (c, k) pairs).
    { rewrite <- chars_in. rewrite existsb_exists. split; [intros (x & Hx & Ex); apply Z.eqb_eq in Ex; now subst|]. intros Hc. exists c. split; [exact Hc|apply Z.eqb_refl]. }
    destruct (existsb (Z.eqb c) (chars_of pairs k)) eqn:Ex.
    - destruct X as [X _]. specialize (X eq_refl). cbn [andb]. repeat split.
      + intros Hc. replace (negb (c =? 0) && negb (c =? 65535)) with false by lia. now apply H1.
      + intros g Hg C0 C1 Gk. rewrite (Pone _ _ _ Hg X). replace (negb (c =? 0) && negb (c =? 65535)) with true by lia. reflexivity.
      + intros N. exfalso. apply (N k X). lia.
    - cbn [andb]. repeat split; [exact H1| |].
      + intros g Hg C0 C1 Gk. apply H2; auto. destruct (Z.eq_dec g k) as [->|]; [|lia]. destruct X as [_ X]. specialize (X Hg). discriminate.
      + intros N. apply H3. intros g Hg. specialize (N g Hg). lia.
  Qed.

  Variables (arr : bytes) (n : Z).
  Let raw (g : Z) : Z := nth (Z.to_nat (4 * g)) arr 0 * 256 + nth (Z.to_nat (4 * g + 1)) arr 0.
  Hypothesis Small : forall g, 0 <= g < n -> raw g < 32768.
  Lemma long_loop : forall k a aw0 dw st aw, 0 <= a -> a + Z.of_nat k <= n -> (forall g, 0 <= g < n -> aw g = raw g) -> entered aw (if a =? 0 then 1 else a) st ->
    exists aw1 st', ofold (long_width sc arr pairs) (range a k) (aw0, dw, st) = Ret (aw1, if (a =? 0) && (0 <? Z.of_nat k) then raw 0 else dw, st') /\
      entered aw (if a + Z.of_nat k =? 0 then 1 else a + Z.of_nat k) st' /\ (1 <= Z.of_nat k -> aw1 = raw (a + Z.of_nat k - 1)).
  Proof.
    induction k as [|k IH]; intros a aw0 dw st aw Ha Hn Haw H.
    - exists aw0, st. rewrite andb_false_r. cbn [range map seq ofold]. split; [reflexivity|]. change (Z.of_nat 0) with 0. rewrite Z.add_0_r. split; [exact H|]. lia.
    - rewrite range_S. cbn [ofold]. unfold long_width at 1. fold (raw a). pose proof (Small a ltac:(lia)) as Sa. replace (32768 <=? raw a) with false by lia.
      assert (STEP : exists dw' st1, (match chars_of pairs a with
          | [] => if a =? 0 then Ret (raw a, raw a, st) else Ret (raw a, dw, st)
          | _ :: _ => if a =? 0 then Ret (raw a, raw a, st) else obind (ofold (put_width sc (raw a)) (chars_of pairs a) st) (fun st0 => Ret (raw a, dw, st0)) end) = Ret (raw a, dw', st1) /\
          dw' = (if a =? 0 then raw 0 else dw) /\ entered aw (a + 1) st1).
      { destruct (a =? 0) eqn:E0.
        - apply Z.eqb_eq in E0. subst a. exists (raw 0), st. split; [destruct (chars_of pairs 0); reflexivity|]. split; [reflexivity|exact H].
        - destruct (put_symbol aw (raw a) a st) as (st1 & P1 & P2); [lia|exact H|symmetry; apply Haw; lia|].
          exists dw, st1. split; [|split; [reflexivity|exact P2]]. destruct (chars_of pairs a) as [|x l] eqn:Ec.
          + cbn [ofold] in P1. injection P1 as <-. reflexivity.
          + rewrite P1. reflexivity. }
      destruct STEP as (dw' & st1 & E1 & -> & E2).
      match goal with |- context [obind ?x _] => replace x with (Ret (raw a, if a =? 0 then raw 0 else dw, st1)) end.
      2: { rewrite <- E1. destruct (chars_of pairs a); reflexivity. }
      cbn [obind]. destruct (IH (a + 1) (raw a) (if a =? 0 then raw 0 else dw) st1 aw) as (aw1 & st' & R1 & R2 & R3); [lia|lia|exact Haw| |].
      { replace (a + 1 =? 0) with false by lia. exact E2. }
      exists aw1, st'. rewrite R1. split; [|split].
      + replace (a + 1 =? 0) with false by lia. cbn [andb]. replace (0 <? Z.of_nat (S k)) with true by lia. now rewrite andb_true_r.
      + replace (a + Z.of_nat (S k)) with (a + 1 + Z.of_nat k) by lia. exact R2.
      + intros _. destruct k as [|k].
        * cbn [range map seq ofold] in R1. assert (X : aw1 = raw a) by congruence. rewrite X. f_equal. lia.
        * rewrite R3 by lia. f_equal. lia.
  Qed.
  Lemma short_loop aw0 aw : forall k a st, 1 <= a -> (forall g, a <= g < a + Z.of_nat k -> aw g = aw0) -> entered aw a st ->
    exists st', ofold (short_width sc aw0 pairs) (range a k) st = Ret st' /\ entered aw (a + Z.of_nat k) st'.
  Proof.
    induction k as [|k IH]; intros a st Ha Haw H.
    - exists st. split; [reflexivity|]. now rewrite Z.add_0_r.
    - rewrite range_S. cbn [ofold]. unfold short_width at 1. destruct (put_symbol aw aw0 a st) as (st1 & P1 & P2); [lia|exact H|symmetry; apply Haw; lia|]. rewrite P1. cbn [obind].
      destruct (IH (a + 1) st1) as (st' & R1 & R2); [lia|intros g Hg; apply Haw; lia|exact P2|]. exists st'. split; [exact R1|]. now replace (a + Z.of_nat (S k)) with (a + 1 + Z.of_nat k) by lia.
  Qed.
End Widths.

(** the table for a font [F] *)
Lemma parse_hmtx_ret sc f dir h F pairs dw cw : Forall is_byte f -> find_desc dir (bs "hmtx") = Some h -> F_hmtx F = extract f (t_pos h) (t_size h) ->
  0 <= t_pos h -> 0 <= t_size h -> t_pos h + t_size h <= len f -> sound_glyphs F -> (forall g, 0 <= g < glyph_count F -> advance F g < 32768) ->
  Forall (fun p => 0 <= fst p <= 65535 /\ 0 <= snd p <= 65535) pairs -> (forall c g g', In (c, g) pairs -> In (c, g') pairs -> g = g') ->
  parse_hmtx sc (long_metrics F) (glyph_count F) pairs f dir = Ret (dw, cw) ->
  dw = advance F 0 /\ length cw = Z.to_nat 65536 /\ forall c, 1 <= c <= 65535 -> exists w, nth_error cw (Z.to_nat c) = Some w /\
    (forall g, In (c, g) pairs -> c <> 65535 -> 1 <= g < glyph_count F -> w = stored (sc (advance F g))) /\
    (c = 65535 \/ (forall g, In (c, g) pairs -> ~ 1 <= g < glyph_count F) -> w = 0).
Proof.
  intros Hf Hh EF H0 H1 H2 SG Sm PR PO H. unfold parse_hmtx in H. rewrite (seek_some _ _ _ Hh) in H. cbn [obind] in H. obr H. rename v into arr. apply rd_ret in E as (_ & _ & E3 & ->).
  pose proof (sg_long F SG) as L. pose proof (sg_hmtx F SG) as LH. rewrite EF in LH. rewrite extract_len in LH by lia.
  set (arr := extract f (t_pos h) (long_metrics F * 4)) in *. set (n := long_metrics F) in *.
  assert (RAW : forall g, 0 <= g < n -> nth (Z.to_nat (4 * g)) arr 0 * 256 + nth (Z.to_nat (4 * g + 1)) arr 0 = advance F g).
  { intros g Hg. unfold advance. fold n. replace (g <? n) with true by lia. rewrite EF, u16_extract by lia.
    change (u16 arr (4 * g) = u16 f (t_pos h + 4 * g)). unfold arr. apply u16_extract; lia. }
  destruct (long_loop sc pairs PR PO arr n) with (k := Z.to_nat n) (a := 0) (aw0 := 0) (dw := 0) (st := {| w_at := fun _ : Z => 0; w_count := 0 |}) (aw := advance F) as (aw1 & st1 & R1 & R2 & R3).
  { intros g Hg. rewrite RAW by lia. apply Sm. lia. }
  { lia. } { lia. } { intros g Hg. symmetry. now apply RAW. }
  { intros c. cbn [w_at]. replace (0 =? 0) with true by reflexivity. repeat split; auto. intros g _ _ _ Hg. lia. }
  rewrite R1 in H. cbn [obind] in H. replace ((0 =? 0) && (0 <? Z.of_nat (Z.to_nat n))) with true in H by lia.
  specialize (R3 ltac:(lia)). rewrite Z.add_0_l, Z2Nat.id in R2, R3 by lia. replace (n =? 0) with false in R2 by lia. rewrite RAW in R3 by lia.
  destruct (short_loop sc pairs PR PO arr n) with (aw0 := aw1) (aw := advance F) (k := Z.to_nat (glyph_count F - n)) (a := n) (st := st1) as (st2 & S1 & S2); [intros g Hg; rewrite RAW by lia; apply Sm; lia|lia| |exact R2|].
  { intros g Hg. rewrite R3. unfold advance. fold n. replace (g <? n) with false by lia. replace (n - 1 <? n) with true by lia. reflexivity. }
  rewrite S1 in H. cbn [obind] in H. rewrite Z2Nat.id in S2 by lia. replace (n + (glyph_count F - n)) with (glyph_count F) in S2 by lia.
  assert (X1 : dw = advance F 0) by (rewrite <- (RAW 0) by lia; congruence).
  assert (X2 : cw = map (fun c => if c =? 0 then w_count st2 else w_at st2 c) (upto 0 (Z.to_nat 65536))) by congruence. rewrite upto_range in X2.
  split; [exact X1|]. split; [rewrite X2, map_length; apply range_len|]. intros c Hc. exists (w_at st2 c). destruct (S2 c) as (T1 & T2 & T3). split; [|split].
  - rewrite X2, nth_error_map, range_nth by lia. cbn [option_map]. replace (0 + Z.of_nat (Z.to_nat c)) with c by lia. replace (c =? 0) with false by lia. reflexivity.
  - intros g Hg C1 Gk. apply T2; auto. lia.
  - intros [->|N]; [apply T1; now right|now apply T3].
Qed.

(** the place of the character map *)
Lemma find_cmap_at f p n : let cm := extract f p n in Forall is_byte f -> 0 <= p -> 0 <= n -> p + n <= len f ->
  forall k q o v, 0 <= q -> q + 8 * Z.of_nat k <= n -> (forall i, 0 <= i < Z.of_nat k -> u32 cm (q + 8 * i + 4) + 2 <= n) ->
  find_cmap f p k (p + q) = Ret v -> find_unicode cm k q = Some o -> match v with Some x => x | None => 0 end = p + o /\ 0 <= o.
Proof.
  intros cm Hf Hp Hn Hl. assert (CB : Forall is_byte cm) by now apply extract_bytes.
  induction k as [|k IH]; intros q o v Hq Hk Hin H Fu; [discriminate|]. cbn [find_cmap] in H.
  obr H. apply rd16_ret in E as (_ & _ & ->). obr H. apply rd16_ret in E as (_ & _ & ->). obr H. apply rd32_ret in E as (_ & _ & ->).
  replace (p + q + 2) with (p + (q + 2)) in H by lia. replace (p + q + 4) with (p + (q + 4)) in H by lia. replace (p + q + 8) with (p + (q + 8)) in H by lia.
  rewrite <- (u16_extract f p n q), <- (u16_extract f p n (q + 2)), <- (u32_extract f p n (q + 4)) in H by lia. fold cm in H.
  pose proof (Hin 0 ltac:(lia)) as Hi0. rewrite Z.mul_0_r, Z.add_0_r in Hi0. pose proof (u32_range cm (q + 4) CB) as U.
  assert (IH' : find_cmap f p k (p + (q + 8)) = Ret v -> find_unicode cm k (q + 8) = Some o -> match v with Some x => x | None => 0 end = p + o /\ 0 <= o).
  { apply IH; [lia|lia|]. intros i Hi. specialize (Hin (i + 1) ltac:(lia)). replace (q + 8 + 8 * i + 4) with (q + 8 * (i + 1) + 4) by lia. exact Hin. }
  cbn [find_unicode] in Fu. rewrite orb_comm in H. destruct ((u16 cm q =? 0) || (u16 cm q =? 3) && (u16 cm (q + 2) =? 1)) eqn:Es; cbn [andb] in Fu; [|auto].
  obr H. apply rd16_ret in E as (_ & _ & ->). rewrite <- (u16_extract f p n) in H by lia. fold cm in H. destruct (u16 cm (u32 cm (q + 4)) =? 4); [|auto].
  assert (X : o = u32 cm (q + 4)) by congruence. rewrite X. destruct (p + u32 cm (q + 4) =? 0) eqn:Ez; assert (Y : v = if p + u32 cm (q + 4) =? 0 then None else Some (p + u32 cm (q + 4))) by (rewrite Ez; congruence); rewrite Y, Ez; lia.
Qed.
Lemma map_place f dir dc cm o v : Forall is_byte f -> find_desc dir (bs "cmap") = Some dc -> 0 <= t_pos dc -> 0 <= t_size dc -> t_pos dc + t_size dc <= len f ->
  cm = extract f (t_pos dc) (t_size dc) -> sound_map cm o -> cmap_position f dir = Ret v -> match v with Some x => x | None => 0 end = t_pos dc + o /\ 0 <= o.
Proof.
  intros Hf Dc Dc0 Dc1 Dc2 Ec SM Hcp. unfold cmap_position in Hcp. rewrite (seek_some _ _ _ Dc) in Hcp. cbn [obind] in Hcp. obr Hcp. apply rd16_ret in E as (_ & _ & ->).
  assert (CL : len cm = t_size dc) by (rewrite Ec; apply extract_len; lia). assert (CB : Forall is_byte cm) by (rewrite Ec; now apply extract_bytes).
  pose proof (sm_records cm o SM) as R. pose proof (u16_range cm 2 CB) as U. rewrite <- (u16_extract f (t_pos dc) (t_size dc) 2), <- Ec in Hcp by lia.
  apply (find_cmap_at f (t_pos dc) (t_size dc) Hf Dc0 Dc1 Dc2 (Z.to_nat (u16 cm 2)) 4); [lia|lia| |exact Hcp|].
  - rewrite <- Ec. intros i Hi. rewrite <- CL. apply (sm_inside cm o SM). lia.
  - rewrite <- Ec. exact (sm_found cm o SM).
Qed.
(** the number of widths *)
Lemma ofold_inv {A S} (P : S -> Prop) (g : A -> S -> outcome S) : (forall a s s', P s -> g a s = Ret s' -> P s') -> forall l s s', P s -> ofold g l s = Ret s' -> P s'.
Proof.
  intros Hg. induction l as [|a l IH]; intros s s' Hs H; cbn [ofold] in H; [injection H as <-; exact Hs|]. obr H. eapply IH; [|exact H]. eapply Hg; eauto.
Qed.
Lemma put_width_count sc aw a st st' : 0 <= w_count st -> put_width sc aw a st = Ret st' -> 0 <= w_count st'.
Proof.
  unfold put_width. intros H0. destruct (_ || _); [intros [= <-]; exact H0|]. destruct (a <? 196608); [|intros [= <-]; exact H0]. destruct (a <? 65536); [|discriminate].
  intros H. assert (X : w_count st' = w_count st + 1) by (injection H as <-; reflexivity). lia.
Qed.
Lemma parse_hmtx_first sc count num pairs f dir dw cw : parse_hmtx sc count num pairs f dir = Ret (dw, cw) -> exists n t, cw = n :: t /\ 0 <= n.
Proof.
  unfold parse_hmtx. intros H. obr H. obr H. obr H. destruct v1 as [[aw d] st]. obr H.
  assert (C1 : 0 <= w_count st).
  { refine (ofold_inv (fun s : Z * Z * widths => 0 <= w_count (snd s)) _ _ _ _ _ _ E1); [|cbn; lia].
    intros a [[a1 d1] s1] [[a2 d2] s2] Hs Hl. cbn [snd] in *. unfold long_width in Hl. destruct (chars_of pairs a).
    - destruct (a =? 0); injection Hl as _ _ <-; exact Hs.
    - destruct (a =? 0); [injection Hl as _ _ <-; exact Hs|]. obr Hl. injection Hl as _ _ <-. refine (ofold_inv (fun s => 0 <= w_count s) _ _ _ _ _ Hs E3). intros x s s' ? ?. eapply put_width_count; eauto. }
  assert (C2 : 0 <= w_count v1).
  { refine (ofold_inv (fun s => 0 <= w_count s) _ _ _ _ _ C1 E2). intros x s s' Hs Hx. unfold short_width in Hx. refine (ofold_inv (fun s => 0 <= w_count s) _ _ _ _ _ Hs Hx).
    intros; eapply put_width_count; eauto. }
  assert (X : cw = map (fun c => if c =? 0 then w_count v1 else w_at v1 c) (upto 0 (Z.to_nat 65536))) by congruence.
  destruct (Z.to_nat 65536) as [|k] eqn:Ek; [lia|]. rewrite X. cbn [upto map]. eexists _, _. split; [reflexivity|]. cbn. exact C2.
Qed.
