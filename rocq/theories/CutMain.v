(** The subset font: all parts together. *)
From Verif Require Import Base DocModel DocSort TtfSpec TtfModel TtfProofs TtfProps TtfCmap CutSpec CutModel CutProofs CutClosure CutRead CutGlyphs CutSymbols CutCmap CutOut.
From Coq Require Import String Permutation.
Open Scope Z_scope.
Notation length := List.length.
Notation concat := List.concat.

(** ** the glyphs the code follows are the glyphs used *)
Lemma components_parts f base n p fields : Forall is_byte f -> 0 <= base -> 0 <= n -> base + n <= len f -> 0 <= p -> components (extract f base n) p fields ->
  parts f (base + p) (map (u16 (extract f base n)) fields).
Proof.
  intros Hf Hb Hn Hl Hp C. induction C as [p H1 H2|p l H1 H2 C IH].
  - rewrite extract_len in H1 by lia. cbn [map]. rewrite (u16_extract f base n p) in H2 by lia. rewrite (u16_extract f base n (p + 2)) by lia. rewrite Z.add_assoc. apply parts_last; [lia|lia|exact H2].
  - pose proof (component_size_pos (u16 (extract f base n) p)). rewrite extract_len in H1 by lia. cbn [map]. rewrite (u16_extract f base n p) in H2, IH, H by lia.
    rewrite (u16_extract f base n (p + 2)) by lia. rewrite Z.add_assoc. apply parts_more; [lia|lia|exact H2|]. rewrite <- Z.add_assoc. apply IH. lia.
Qed.

Section Uses.
  Variables (f : bytes) (F : font) (gl : desc) (locs : list Z).
  Hypothesis Hf : Forall is_byte f.
  Hypothesis Hg0 : 0 <= t_pos gl.
  Hypothesis Hgs : 0 <= t_size gl.
  Hypothesis Hgl : t_pos gl + t_size gl <= len f.
  Hypothesis HFg : F_glyf F = extract f (t_pos gl) (t_size gl).
  Hypothesis Hsound : sound_glyphs F.
  Hypothesis Hlocs : forall g p, loc locs g = Ret p <-> 0 <= g <= glyph_count F /\ p = loca_at F g.
  Hypothesis Hloca0 : forall g, 0 <= g <= glyph_count F -> 0 <= loca_at F g.

  Lemma fuses_uses g h : 0 <= g < glyph_count F -> (composite (glyph F g) = true -> exists fields, components (glyph F g) 10 fields) ->
    fuses f locs (t_pos gl) g h <-> uses F g h.
  Proof.
    intros Hg HC. destruct (glyph_extract f F gl Hg0 Hgs Hgl HFg Hsound g Hg (Hloca0 g ltac:(lia))) as (G1 & G2 & G3).
    pose proof (Hloca0 g ltac:(lia)) as L0. destruct (sg_order F Hsound g Hg) as [O1 _].
    split.
    - intros (p & l & (q & E1 & E2 & E3 & E4) & Pt & Hi). apply Hlocs in E1 as [_ ->]. apply Hlocs in E2 as [_ ->].
      destruct (sg_size F Hsound g Hg) as [Sz|Sz]; [lia|].
      assert (Cp : composite (glyph F g) = true). { unfold composite. rewrite G2, G1, u16_extract, Z.add_0_r by lia. lia. }
      split; [exact Cp|]. destruct (HC Cp) as (fields & Cf). exists fields.
      assert (Cf' := Cf). rewrite G1 in Cf'. apply components_parts in Cf'; [|exact Hf|lia|lia|lia|lia]. rewrite <- G1 in Cf'.
      rewrite (parts_det f _ _ Pt _ Cf') in Hi. apply in_map_iff in Hi as (x & Hx & Hi). exists x. auto.
    - intros (Cp & fields & x & Cf & Hi & Hx). unfold composite in Cp. rewrite G2 in Cp. rewrite G1 in Cp at 1.
      assert (Sz : 2 < loca_at F (g + 1) - loca_at F g) by lia. rewrite u16_extract, Z.add_0_r in Cp by lia.
      exists (loca_at F g), (map (u16 (glyph F g)) fields). split; [|split].
      + exists (loca_at F (g + 1)). split; [apply Hlocs; split; [lia|reflexivity]|]. split; [apply Hlocs; split; [lia|reflexivity]|]. lia.
      + assert (Cf' := Cf). rewrite G1 in Cf'. apply components_parts in Cf'; [|exact Hf|lia|lia|lia|lia]. rewrite <- G1 in Cf'. exact Cf'.
      + apply in_map_iff. exists x. auto.
  Qed.

  Lemma needed_reach l keys : (forall g, In g keys -> 0 <= g < glyph_count F /\ (composite (glyph F g) = true -> exists fields, components (glyph F g) 10 fields)) ->
    (forall g, In g keys <-> exists g0, In g0 l /\ reach f locs (t_pos gl) g0 g) -> forall g, In g keys <-> needed F l g.
  Proof.
    intros HK HR g. split.
    - intros Hg. apply HR in Hg as (g0 & H0 & Hr).
      assert (G : forall a b, reach f locs (t_pos gl) a b -> reach f locs (t_pos gl) g0 a -> needed F l a -> needed F l b).
      { induction 1 as [a|a b c Hu Hr' IH]; intros Ha Na; [exact Na|]. apply IH.
        - eapply reach_trans; [exact Ha|]. eapply reach_step; [exact Hu|constructor].
        - eapply need_part; [exact Na|]. destruct (HK a) as [K1 K2]; [apply HR; eauto|]. now apply fuses_uses. }
      eapply G; [exact Hr|constructor|now constructor].
    - induction 1 as [g Hg|g h Hn IH Hu]; [apply HR; exists g; split; [exact Hg|constructor]|].
      destruct (HK g IH) as [K1 K2]. apply fuses_uses in Hu; [|exact K1|exact K2]. apply HR in IH as (g0 & H0 & Hr). apply HR. exists g0. split; [exact H0|].
      eapply reach_trans; [exact Hr|]. eapply reach_step; [exact Hu|constructor].
  Qed.
End Uses.


Lemma loca_nonneg f F : Forall is_byte f -> (exists p n, F_loca F = extract f p n) -> forall g, 0 <= loca_at F g.
Proof.
  intros Hf (p & n & E) g. assert (B : Forall is_byte (F_loca F)) by (rewrite E; now apply extract_bytes). unfold loca_at.
  destruct (_ =? 0); [pose proof (u16_range (F_loca F) (2 * g) B); lia|pose proof (u32_range (F_loca F) (4 * g) B); lia].
Qed.
Lemma found_in dict used c g : In (c, g) (found_pairs dict used) <-> In c used /\ char_symbol dict c = Some g.
Proof.
  unfold found_pairs. rewrite in_flat_map. split.
  - intros (x & Hx & Hi). apply (dedup_in used) in Hx. destruct (char_symbol dict x) as [s|] eqn:E; [|destruct Hi]. destruct Hi as [Hi|[]]. injection Hi as -> ->. split; assumption.
  - intros [Hc E]. exists c. split; [now apply dedup_in|]. rewrite E. now left.
Qed.
Lemma found_nodup dict used : NoDup (map fst (found_pairs dict used)) /\ (length (found_pairs dict used) <= length used)%nat.
Proof.
  unfold found_pairs. assert (D : (length (dedup used) <= length used)%nat).
  { clear. induction used as [|a l IH]; [cbn; lia|]. cbn [dedup]. destruct (existsb _ l); cbn [length]; lia. }
  assert (X : (length (flat_map (fun c : Z => match char_symbol dict c with Some g => [(c, g)] | None => [] end) (dedup used)) <= length (dedup used))%nat).
  { generalize (dedup used). intros l. induction l as [|a l IH]; [cbn; lia|]. cbn [flat_map]. rewrite app_length. destruct (char_symbol dict a); cbn [length]; lia. }
  split; [|lia]. pose proof (dedup_nodup used) as N. revert N. generalize (dedup used). clear. intros l.
  induction l as [|a l IH]; intros N; [constructor|]. inversion N as [|? ? N1 N2]; subst. cbn [flat_map]. destruct (char_symbol dict a); cbn [app map fst]; [|auto].
  constructor; [|auto]. intros H. apply N1. apply in_map_iff in H as ([x y] & Hx & Hi). cbn in Hx. subst x. apply in_flat_map in Hi as (w & Hz & Hi).
  destruct (char_symbol dict w); [|destruct Hi]. destruct Hi as [Hi|[]]. injection Hi as -> _. exact Hz.
Qed.
Lemma fold_max_ge l : forall a, a <= fold_left Z.max l a /\ forall x, In x l -> x <= fold_left Z.max l a.
Proof.
  induction l as [|b l IH]; intros a; cbn [fold_left]; [split; [lia|intros x []]|]. destruct (IH (Z.max a b)) as [H1 H2]. split; [lia|]. intros x [<-|Hx]; [lia|auto].
Qed.
