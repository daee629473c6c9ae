(** The character map of the font as the code reads it. *)
From Verif Require Import Base DocModel TtfSpec TtfModel TtfProofs CutSpec CutModel CutProofs CutRead.
From Coq Require Import String Permutation.
Open Scope Z_scope.
Notation length := List.length.
Notation concat := List.concat.

Lemma omap_nth {A} (g : Z -> outcome A) (val : Z -> A) k l : omap g (range 0 k) = Ret l -> (forall i v, g i = Ret v -> v = val i) ->
  forall i d, 0 <= i < Z.of_nat k -> nth (Z.to_nat i) l d = val i.
Proof.
  intros H Hv. apply omap_ret in H. intros i d Hi.
  destruct (Forall2_nth _ _ _ H (Z.to_nat i) i) as (b & Hb & R). { rewrite range_nth by lia. f_equal. lia. }
  rewrite (nth_error_nth _ _ _ Hb). now apply Hv.
Qed.

(** the pairs entered for one segment *)
Definition in_segment (f : bytes) (o n c g : Z) : Prop :=
  let s := 2 * (u16 f (o + 6) / 2) in
  let start := u16 f (o + 16 + s + 2 * n) in
  let d := u16 f (o + 16 + 2 * s + 2 * n) in
  let rp := o + 16 + 3 * s + 2 * n in
  start <= c <= u16 f (o + 14 + 2 * n) /\
  (if u16 f rp =? 0 then g = (c + d) mod 65536
   else if o + u16 f (o + 2) <=? rp + u16 f rp + (c - start) * 2 then g = 0
   else let x := u16 f (rp + u16 f rp + (c - start) * 2) in g = if x =? 0 then 0 else (x + d) mod 65536).
Lemma signed_mod c d : (c + (if d <? 32768 then d else d - 65536)) mod 65536 = (c + d) mod 65536.
Proof. destruct (d <? 32768); [reflexivity|]. replace (c + (d - 65536)) with (c + d + (-1) * 65536) by lia. apply Z.mod_add. lia. Qed.
Lemma char_symbols_in f o dict : Forall is_byte f -> char_symbols f o = Ret dict -> forall c g, In (c, g) dict <->
  exists n, 0 <= n < u16 f (o + 6) / 2 /\ in_segment f o n c g.
Proof.
  intros Hf H. unfold char_symbols in H. obr H. apply rd16_ret in E as (_ & _ & ->). obr H. apply rd16_ret in E as (_ & _ & ->).
  pose proof (u16_range f (o + 6) Hf) as U. set (k := u16 f (o + 6) / 2) in *. assert (K0 : 0 <= k) by (apply Z.div_pos; lia).
  obr H. obr H. obr H. obr H. obr H. injection H as <-. rename v into ends, v0 into starts, v1 into deltas, v2 into poss, v3 into ll.
  pose proof (omap_nth _ (fun i => u16 f (o + 14 + 2 * i)) _ _ E ltac:(intros i w R; now apply rd16_ret in R as (_ & _ & ->))) as N1.
  pose proof (omap_nth _ (fun i => u16 f (o + 16 + 2 * k + 2 * i)) _ _ E0 ltac:(intros i w R; now apply rd16_ret in R as (_ & _ & ->))) as N2.
  pose proof (omap_nth _ (fun i => let d := u16 f (o + 16 + 2 * (2 * k) + 2 * i) in if d <? 32768 then d else d - 65536) _ _ E1 ltac:(intros i w R; now apply rdi16_ret in R as (_ & _ & ->))) as N3.
  pose proof (omap_nth _ (fun i => u16 f (o + 16 + 3 * (2 * k) + 2 * i)) _ _ E2 ltac:(intros i w R; now apply rd16_ret in R as (_ & _ & ->))) as N4.
  rewrite Z2Nat.id in N1, N2, N3, N4 by lia. apply omap_ret in E3. clear E E0 E1 E2.
  assert (SEG : forall n seg, 0 <= n < k -> segment_pairs f (o + u16 f (o + 2)) (o + 16 + 3 * (2 * k)) n starts ends deltas poss = Ret seg ->
                forall c g, In (c, g) seg <-> in_segment f o n c g).
  { intros n seg Hn S c g. unfold segment_pairs in S. apply omap_ret in S. rewrite N1, N2, N3, N4 in S by exact Hn.
    unfold in_segment. fold k. cbn zeta. set (start := u16 f (o + 16 + 2 * k + 2 * n)) in *. set (en := u16 f (o + 14 + 2 * n)) in *.
    set (rp := o + 16 + 3 * (2 * k) + 2 * n) in *. set (d := u16 f (o + 16 + 2 * (2 * k) + 2 * n)) in *.
    assert (VAL : forall char s, seg_symbol f (o + u16 f (o + 2)) start (if d <? 32768 then d else d - 65536) (u16 f rp) rp char = Ret s ->
      (if u16 f rp =? 0 then s = (char + d) mod 65536
       else if o + u16 f (o + 2) <=? rp + u16 f rp + (char - start) * 2 then s = 0
       else s = if u16 f (rp + u16 f rp + (char - start) * 2) =? 0 then 0 else (u16 f (rp + u16 f rp + (char - start) * 2) + d) mod 65536)).
    { intros char s Hs. unfold seg_symbol in Hs. destruct (u16 f rp =? 0); [injection Hs as <-; apply signed_mod|]. cbn zeta in Hs.
      destruct (_ <=? _); [now injection Hs as <-|]. obr Hs. apply rd16_ret in E as (_ & _ & ->). injection Hs as <-.
      destruct (_ =? 0); [reflexivity|]. apply signed_mod. }
    split.
    - intros Hi. apply In_nth_error in Hi as (j & Hj). destruct (Forall2_nth' _ _ _ S _ _ Hj) as (char & Hc & R). apply nth_error_In, in_range in Hc.
      obr R. injection R as -> ->. split; [lia|]. now apply VAL.
    - intros [Hc Hg]. assert (Hin : In c (range start (Z.to_nat (en + 1 - start)))) by (apply in_range; lia). apply In_nth_error in Hin as (j & Hj).
      destruct (Forall2_nth _ _ _ S _ _ Hj) as (pr & Hp & R). obr R. injection R as <-. apply VAL in E. apply nth_error_In in Hp.
      replace g with v; [exact Hp|]. destruct (u16 f rp =? 0); [congruence|]. destruct (_ <=? _); [congruence|]. congruence. }
  intros c g. rewrite in_concat. split.
  - intros (seg & Hs & Hi). apply In_nth_error in Hs as (j & Hj). destruct (Forall2_nth' _ _ _ E3 _ _ Hj) as (n & Hn & R). apply nth_error_In, in_range in Hn.
    exists n. split; [lia|]. apply (SEG n seg); [lia|exact R|exact Hi].
  - intros (n & Hn & Hi). destruct (Forall2_nth _ _ _ E3 (Z.to_nat n) n) as (seg & Hs & R). { rewrite range_nth by lia. f_equal. lia. }
    exists seg. split; [eapply nth_error_In, Hs|]. apply (SEG n seg); auto.
Qed.
Lemma char_symbols_range f o dict : Forall is_byte f -> char_symbols f o = Ret dict -> Forall (fun p => 0 <= fst p <= 65535 /\ 0 <= snd p <= 65535) dict.
Proof.
  intros Hf H. apply Forall_forall. intros [c g] Hi. apply (char_symbols_in f o dict Hf H) in Hi as (n & Hn & Hs & Hg). cbn [fst snd]. cbn zeta in *.
  pose proof (u16_range f (o + 16 + 2 * (u16 f (o + 6) / 2) + 2 * n) Hf). pose proof (u16_range f (o + 14 + 2 * n) Hf). split; [lia|].
  destruct (u16 f _ =? 0); [subst g; match goal with |- context [?a mod 65536] => pose proof (Z.mod_pos_bound a 65536 ltac:(lia)) end; lia|].
  destruct (_ <=? _); [lia|]. destruct (_ =? 0); subst g; [lia|]. match goal with |- context [?a mod 65536] => pose proof (Z.mod_pos_bound a 65536 ltac:(lia)) end; lia.
Qed.

Lemma find_segment_some s e c : forall k i r, find_segment s e k i c = Some r -> i <= r < i + Z.of_nat k /\ c <= u16 s (e + 2 * r) /\ forall j, i <= j < r -> u16 s (e + 2 * j) < c.
Proof.
  induction k as [|k IH]; intros i r H; cbn [find_segment] in H; [discriminate|]. destruct (c <=? u16 s (e + 2 * i)) eqn:E.
  - injection H as <-. split; [lia|]. split; [lia|]. lia.
  - apply IH in H as (H1 & H2 & H3). split; [lia|]. split; [exact H2|]. intros j Hj. destruct (Z.eq_dec j i) as [->|]; [lia|]. apply H3. lia.
Qed.
Lemma find_segment_none s e c : forall k i, find_segment s e k i c = None -> forall j, i <= j < i + Z.of_nat k -> u16 s (e + 2 * j) < c.
Proof.
  induction k as [|k IH]; intros i H j Hj; cbn [find_segment] in H; [lia|]. destruct (c <=? u16 s (e + 2 * i)) eqn:E; [discriminate|].
  destruct (Z.eq_dec j i) as [->|]; [lia|]. apply (IH _ H). lia.
Qed.

(** reading the subtable at its place in the file is looking up in the table *)
Lemma dict_segment f p n o : let cm := extract f p n in Forall is_byte f -> 0 <= p -> 0 <= n -> p + n <= len f -> 0 <= o -> sound_map cm o ->
  forall c i g, 0 <= c <= 65535 -> 0 <= i < u16 cm (o + 6) / 2 -> in_segment f (p + o) i c g -> lookup4 cm o c = g.
Proof.
  intros cm Hf Hp Hn Hl Ho S c i g Hc. assert (CB : Forall is_byte cm) by now apply extract_bytes. assert (CL : len cm = n) by (apply extract_len; lia).
  destruct (sm_length cm o S) as [L1 L2]. pose proof (sm_even cm o S) as Ev. pose proof (u16_range cm (o + 6) CB) as U6. pose proof (u16_range cm (o + 2) CB) as U2.
  assert (AT : forall q, 0 <= q -> q + 2 <= u16 cm (o + 2) -> u16 f (p + o + q) = u16 cm (o + q)).
  { intros q Hq Hq2. unfold cm. rewrite u16_extract by lia. f_equal. lia. }
  assert (SS : 2 * (u16 cm (o + 6) / 2) = u16 cm (o + 6)). { pose proof (Z.div_mod (u16 cm (o + 6)) 2 ltac:(lia)). lia. }
  set (k := u16 cm (o + 6) / 2) in *.
  intros Hi (Hs & Hg). cbn zeta in Hs, Hg. rewrite (AT 6) in Hs, Hg by lia. fold k in Hs, Hg. rewrite SS in Hs, Hg. unfold lookup4. fold k.
    replace (p + o + 16 + u16 cm (o + 6) + 2 * i) with (p + o + (16 + u16 cm (o + 6) + 2 * i)) in Hs, Hg by lia. rewrite !(AT (16 + u16 cm (o + 6) + 2 * i)) in Hs, Hg by lia.
    replace (p + o + 14 + 2 * i) with (p + o + (14 + 2 * i)) in Hs by lia. rewrite (AT (14 + 2 * i)) in Hs by lia.
    replace (o + (16 + u16 cm (o + 6) + 2 * i)) with (o + 16 + u16 cm (o + 6) + 2 * i) in * by lia. replace (o + (14 + 2 * i)) with (o + 14 + 2 * i) in Hs by lia.
    destruct (find_segment cm (o + 14) (Z.to_nat k) 0 c) as [r|] eqn:Er.
    2: { pose proof (find_segment_none _ _ _ _ _ Er i ltac:(lia)). lia. }
    apply find_segment_some in Er as (R1 & R2 & R3).
    assert (r = i).
    { destruct (Z.lt_trichotomy r i) as [Hlt|[Heq|Hgt]]; [|exact Heq|].
      - pose proof (sm_apart cm o S r i ltac:(lia) ltac:(lia)) as AP. unfold seg_end_of, seg_start_of in AP. lia.
      - specialize (R3 i ltac:(lia)). lia. }
    subst r. replace (c <? u16 cm (o + 16 + u16 cm (o + 6) + 2 * i)) with false by lia.
    pose proof (sm_range cm o S i ltac:(lia)) as RG. cbn zeta in RG. unfold seg_end_of, seg_start_of in RG.
    replace (p + o + 16 + 3 * u16 cm (o + 6) + 2 * i) with (p + o + (16 + 3 * u16 cm (o + 6) + 2 * i)) in Hg by lia.
    replace (p + o + 16 + 2 * u16 cm (o + 6) + 2 * i) with (p + o + (16 + 2 * u16 cm (o + 6) + 2 * i)) in Hg by lia.
    rewrite !(AT (16 + 3 * u16 cm (o + 6) + 2 * i)) in Hg by lia. rewrite !(AT (16 + 2 * u16 cm (o + 6) + 2 * i)) in Hg by lia. rewrite (AT 2) in Hg by lia.
    replace (o + (16 + 3 * u16 cm (o + 6) + 2 * i)) with (o + 16 + 3 * u16 cm (o + 6) + 2 * i) in * by lia.
    replace (o + (16 + 2 * u16 cm (o + 6) + 2 * i)) with (o + 16 + 2 * u16 cm (o + 6) + 2 * i) in * by lia.
    pose proof (u16_range cm (o + 16 + 3 * u16 cm (o + 6) + 2 * i) CB) as URP.
    destruct (u16 cm (o + 16 + 3 * u16 cm (o + 6) + 2 * i) =? 0) eqn:Z0; [now symmetry|]. destruct RG as [RG|RG]; [lia|].
    set (start := u16 cm (o + 16 + u16 cm (o + 6) + 2 * i)) in *. set (ro := u16 cm (o + 16 + 3 * u16 cm (o + 6) + 2 * i)) in *.
    replace (p + o + (16 + 3 * u16 cm (o + 6) + 2 * i) + ro + (c - start) * 2) with (p + o + (16 + 3 * u16 cm (o + 6) + 2 * i + ro + 2 * (c - start))) in Hg by lia.
    replace (p + o + u16 cm (o + 2) <=? p + o + (16 + 3 * u16 cm (o + 6) + 2 * i + ro + 2 * (c - start))) with false in Hg by lia.
    rewrite (AT (16 + 3 * u16 cm (o + 6) + 2 * i + ro + 2 * (c - start))) in Hg by lia.
    replace (o + 16 + 3 * u16 cm (o + 6) + 2 * i + ro + 2 * (c - start)) with (o + (16 + 3 * u16 cm (o + 6) + 2 * i + ro + 2 * (c - start))) by lia. now symmetry.
Qed.
Lemma dict_lookup f p n o dict : let cm := extract f p n in Forall is_byte f -> 0 <= p -> 0 <= n -> p + n <= len f -> 0 <= o -> sound_map cm o ->
  char_symbols f (p + o) = Ret dict -> forall c, 0 <= c <= 65535 ->
  match char_symbol dict c with Some g => lookup4 cm o c = g | None => lookup4 cm o c = 0 end.
Proof.
  intros cm Hf Hp Hn Hl Ho S H c Hc. assert (CB : Forall is_byte cm) by now apply extract_bytes. assert (CL : len cm = n) by (apply extract_len; lia).
  destruct (sm_length cm o S) as [L1 L2]. pose proof (sm_even cm o S) as Ev. pose proof (u16_range cm (o + 6) CB) as U6. pose proof (u16_range cm (o + 2) CB) as U2.
  assert (AT : forall q, 0 <= q -> q + 2 <= u16 cm (o + 2) -> u16 f (p + o + q) = u16 cm (o + q)).
  { intros q Hq Hq2. unfold cm. rewrite u16_extract by lia. f_equal. lia. }
  pose proof (char_symbols_in f (p + o) dict Hf H) as IN. rewrite (AT 6) in IN by lia.
  assert (SS : 2 * (u16 cm (o + 6) / 2) = u16 cm (o + 6)). { pose proof (Z.div_mod (u16 cm (o + 6)) 2 ltac:(lia)). lia. }
  set (k := u16 cm (o + 6) / 2) in *.
  assert (A : forall i g, 0 <= i < k -> in_segment f (p + o) i c g -> lookup4 cm o c = g) by (intros i g Hi; exact (dict_segment f p n o Hf Hp Hn Hl Ho S c i g Hc Hi)).
  unfold char_symbol. destruct (find (fun q => fst q =? c) (rev dict)) as [[c' g]|] eqn:Ef; cbn [option_map snd].
  - apply find_some in Ef as [Ef1 Ef2]. cbn [fst] in Ef2. apply Z.eqb_eq in Ef2. subst c'. rewrite <- in_rev in Ef1. apply IN in Ef1 as (i & Hi & Hs). now apply (A i g).
  - assert (NO : forall i, 0 <= i < k -> ~ (seg_start_of cm o i <= c <= seg_end_of cm o i)).
    { intros i Hi Hcc. unfold seg_start_of, seg_end_of in Hcc.
      assert (EX : exists g, in_segment f (p + o) i c g).
      { unfold in_segment. cbn zeta. rewrite (AT 6) by lia. fold k. rewrite SS.
        replace (p + o + 16 + u16 cm (o + 6) + 2 * i) with (p + o + (16 + u16 cm (o + 6) + 2 * i)) by lia. rewrite !(AT (16 + u16 cm (o + 6) + 2 * i)) by lia.
        replace (p + o + 14 + 2 * i) with (p + o + (14 + 2 * i)) by lia. rewrite (AT (14 + 2 * i)) by lia.
        replace (o + (16 + u16 cm (o + 6) + 2 * i)) with (o + 16 + u16 cm (o + 6) + 2 * i) by lia. replace (o + (14 + 2 * i)) with (o + 14 + 2 * i) by lia.
        destruct (u16 f _ =? 0); [eexists; split; [exact Hcc|reflexivity]|]. destruct (_ <=? _); eexists; (split; [exact Hcc|reflexivity]). }
      destruct EX as (g & EX). assert (I : In (c, g) (rev dict)) by (rewrite <- in_rev; apply IN; eauto).
      pose proof (find_none _ _ Ef _ I) as X. cbn [fst] in X. rewrite Z.eqb_refl in X. discriminate. }
    unfold lookup4. fold k. destruct (find_segment cm (o + 14) (Z.to_nat k) 0 c) as [r|] eqn:Er; [|reflexivity].
    apply find_segment_some in Er as (R1 & R2 & R3). specialize (NO r ltac:(lia)). unfold seg_start_of, seg_end_of in NO.
    replace (c <? u16 cm (o + 16 + u16 cm (o + 6) + 2 * r)) with true by lia. reflexivity.
Qed.

(** the subtable *)
Lemma find_cmap_ret f p n : let cm := extract f p n in Forall is_byte f -> 0 <= p -> 0 <= n -> p + n <= len f ->
  forall k q o, 0 <= q -> q + 8 * Z.of_nat k <= n -> (forall i, 0 <= i < Z.of_nat k -> u32 cm (q + 8 * i + 4) + 2 <= n) ->
  find_cmap f p k (p + q) = Ret (Some o) -> exists o', find_unicode cm k q = Some o' /\ o = p + o' /\ 0 <= o'.
Proof.
  intros cm Hf Hp Hn Hl. assert (CB : Forall is_byte cm) by now apply extract_bytes.
  induction k as [|k IH]; intros q o Hq Hk Hin H; cbn [find_cmap] in H; [discriminate|].
  obr H. apply rd16_ret in E as (_ & _ & ->). obr H. apply rd16_ret in E as (_ & _ & ->). obr H. apply rd32_ret in E as (_ & _ & ->).
  replace (p + q + 2) with (p + (q + 2)) in H by lia. replace (p + q + 4) with (p + (q + 4)) in H by lia. replace (p + q + 8) with (p + (q + 8)) in H by lia.
  rewrite <- (u16_extract f p n q), <- (u16_extract f p n (q + 2)), <- (u32_extract f p n (q + 4)) in H by lia. fold cm in H.
  pose proof (Hin 0 ltac:(lia)) as Hi0. rewrite Z.mul_0_r, Z.add_0_r in Hi0. pose proof (u32_range cm (q + 4) CB) as U.
  assert (IH' : find_cmap f p k (p + (q + 8)) = Ret (Some o) -> exists o', find_unicode cm k (q + 8) = Some o' /\ o = p + o' /\ 0 <= o').
  { apply IH; [lia|lia|]. intros i Hi. specialize (Hin (i + 1) ltac:(lia)). replace (q + 8 + 8 * i + 4) with (q + 8 * (i + 1) + 4) by lia. exact Hin. }
  cbn [find_unicode]. rewrite orb_comm in H. destruct ((u16 cm q =? 0) || (u16 cm q =? 3) && (u16 cm (q + 2) =? 1)) eqn:Es; cbn [andb]; [|auto].
  obr H. apply rd16_ret in E as (_ & _ & ->). rewrite <- (u16_extract f p n) in H by lia. fold cm in H. destruct (u16 cm (u32 cm (q + 4)) =? 4); [|auto].
  exists (u32 cm (q + 4)). split; [reflexivity|]. destruct (p + u32 cm (q + 4) =? 0); [discriminate|]. injection H as <-. lia.
Qed.

(** a pair of the dictionary is one of the map *)
Lemma dict_pair f p n o dict : let cm := extract f p n in Forall is_byte f -> 0 <= p -> 0 <= n -> p + n <= len f -> 0 <= o -> sound_map cm o ->
  char_symbols f (p + o) = Ret dict -> forall c g, In (c, g) dict -> lookup4 cm o c = g.
Proof.
  intros cm Hf Hp Hn Hl Ho S H c g Hi. pose proof (char_symbols_range f (p + o) dict Hf H) as R. rewrite Forall_forall in R. destruct (R _ Hi) as [Rc _]. cbn [fst] in Rc.
  apply (char_symbols_in f (p + o) dict Hf H) in Hi as (i & Hi & Hs). destruct (sm_length cm o S) as [L1 L2]. assert (CB : Forall is_byte cm) by now apply extract_bytes. assert (CL : len cm = n) by (apply extract_len; lia).
  pose proof (u16_range cm (o + 6) CB).
  replace (u16 f (p + o + 6)) with (u16 cm (o + 6)) in Hi by (unfold cm; rewrite u16_extract by lia; f_equal; lia).
  exact (dict_segment f p n o Hf Hp Hn Hl Ho S c i g Rc Hi Hs).
Qed.
