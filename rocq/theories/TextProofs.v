From Verif Require Import Base TextModel TextSpec.

(** * Escaping *)
Definition esc1 (c : Z) : bytes :=
  if c =? 92 then [92; 92] else if c =? 40 then [92; 40] else if c =? 41 then [92; 41]
  else if c =? 13 then [92; 114] else [c].

Lemma flat_map_flat_map {A B C} (f : A -> list B) (g : B -> list C) l :
  flat_map g (flat_map f l) = flat_map (fun x => flat_map g (f x)) l.
Proof. induction l as [|x l IH]; simpl; [reflexivity|]. now rewrite flat_map_app, IH. Qed.

Lemma escape_flat s : escape s = flat_map esc1 s.
Proof.
  unfold escape. rewrite !replace_all_byte, !flat_map_flat_map.
  apply flat_map_ext. intros c. unfold esc1.
  destruct (92 =? c) eqn:E1; [apply Z.eqb_eq in E1; subst; reflexivity|].
  rewrite (Z.eqb_sym c 92), E1. cbn [flat_map app].
  destruct (40 =? c) eqn:E2; [apply Z.eqb_eq in E2; subst; reflexivity|].
  rewrite (Z.eqb_sym c 40), E2. cbn [flat_map app].
  destruct (41 =? c) eqn:E3; [apply Z.eqb_eq in E3; subst; reflexivity|].
  rewrite (Z.eqb_sym c 41), E3. cbn [flat_map app].
  rewrite (Z.eqb_sym c 13). destruct (13 =? c); reflexivity.
Qed.

Lemma read_esc1 c d s :
  read_literal d (esc1 c ++ s) = cons_res c (read_literal d s).
Proof.
  unfold esc1.
  destruct (c =? 92) eqn:E1; [apply Z.eqb_eq in E1; subst; reflexivity|].
  destruct (c =? 40) eqn:E2; [apply Z.eqb_eq in E2; subst; reflexivity|].
  destruct (c =? 41) eqn:E3; [apply Z.eqb_eq in E3; subst; reflexivity|].
  destruct (c =? 13) eqn:E4; [apply Z.eqb_eq in E4; subst; reflexivity|].
  cbn [app read_literal]. now rewrite E1, E2, E3, E4.
Qed.

Lemma read_escape s d t : read_literal d (escape s ++ t) = 
  match read_literal d t with Some (a, b) => Some (s ++ a, b) | None => None end.
Proof.
  rewrite escape_flat. induction s as [|c s IH]; cbn [flat_map app].
  - destruct (read_literal d t) as [[a b]|]; reflexivity.
  - rewrite <- app_assoc, read_esc1, IH. now destruct (read_literal d t) as [[a b]|].
Qed.

Lemma textstring_roundtrip s rest : read_string (textstring s ++ rest) = Some (s, rest).
Proof.
  unfold read_string, textstring. cbn [app]. rewrite Z.eqb_refl, <- app_assoc, read_escape.
  cbn [app read_literal]. cbn. now rewrite app_nil_r.
Qed.

(** cell_escape: without CR it is the same as escape *)
Lemma cell_escape_flat s : cell_escape s = flat_map (fun c => if c =? 13 then [13] else esc1 c) s.
Proof.
  unfold cell_escape. rewrite !replace_all_byte, !flat_map_flat_map.
  apply flat_map_ext. intros c. unfold esc1.
  destruct (92 =? c) eqn:E1; [apply Z.eqb_eq in E1; subst; reflexivity|].
  rewrite (Z.eqb_sym c 92), E1. cbn [flat_map app].
  destruct (40 =? c) eqn:E2; [apply Z.eqb_eq in E2; subst; reflexivity|].
  rewrite (Z.eqb_sym c 40), E2. cbn [flat_map app].
  destruct (41 =? c) eqn:E3; [apply Z.eqb_eq in E3; subst; reflexivity|].
  rewrite (Z.eqb_sym c 41), E3.
  destruct (c =? 13) eqn:E4; [apply Z.eqb_eq in E4; subst|]; reflexivity.
Qed.

Lemma cell_escape_nocr s : ~ In 13 s -> cell_escape s = escape s.
Proof.
  intros H. rewrite cell_escape_flat, escape_flat.
  induction s as [|c s IH]; [reflexivity|]. cbn [flat_map]. rewrite IH.
  2:{ intros Hin. apply H. now right. }
  replace (c =? 13) with false; [reflexivity|].
  symmetry. apply Z.eqb_neq. intros ->. apply H. now left.
Qed.

(** What a reader makes of the cell operand in general: each CR, or CR LF pair,
    becomes one LF. *)
Fixpoint cr_to_lf (s : bytes) : bytes :=
  match s with
  | [] => []
  | c :: t => if c =? 13
              then match t with
                   | l :: t2 => if l =? 10 then 10 :: cr_to_lf t2 else 10 :: cr_to_lf t
                   | [] => [10]
                   end
              else c :: cr_to_lf t
  end.

Lemma read_cell_escape_aux n s d t :
  (length s <= n)%nat ->
  read_literal d (cell_escape s ++ 41 :: t) =
  match read_literal d (41 :: t) with Some (a, b) => Some (cr_to_lf s ++ a, b) | None => None end.
Proof.
  rewrite cell_escape_flat. revert s d. induction n as [|n IH]; intros s d Hn.
  - destruct s; [|simpl in Hn; lia]. cbn [flat_map app cr_to_lf].
    destruct (read_literal d (41 :: t)) as [[a b]|]; reflexivity.
  - destruct s as [|c s]; cbn [flat_map app cr_to_lf].
    + destruct (read_literal d (41 :: t)) as [[a b]|]; reflexivity.
    + cbn [length] in Hn. destruct (c =? 13) eqn:E.
      * apply Z.eqb_eq in E; subst c. destruct s as [|l s].
        -- cbn [flat_map app]. change (read_literal d (13 :: 41 :: t)) with (cons_res 10 (read_literal d (41 :: t))).
           destruct (read_literal d (41 :: t)) as [[a b]|]; reflexivity.
        -- cbn [flat_map]. destruct (l =? 10) eqn:E2.
           ++ apply Z.eqb_eq in E2; subst l. cbn [length] in Hn.
              change (10 =? 13) with false. change (esc1 10) with [10]. cbn [app].
              match goal with |- read_literal d (13 :: 10 :: ?X) = _ =>
                change (read_literal d (13 :: 10 :: X)) with (cons_res 10 (read_literal d X)) end.
              rewrite IH by lia.
              destruct (read_literal d (41 :: t)) as [[a b]|]; reflexivity.
           ++ cbn [app].
              assert (Hstep : forall X, (exists y Y, X = y :: Y /\ (y =? 10) = false) ->
                 read_literal d (13 :: X) = cons_res 10 (read_literal d X)).
              { intros X (y & Y & -> & Hy). cbn [read_literal]. cbn. now rewrite Hy. }
              rewrite Hstep.
              ** specialize (IH (l :: s) d ltac:(simpl in *; lia)). cbn [flat_map] in IH.
                 rewrite IH. destruct (read_literal d (41 :: t)) as [[a b]|]; reflexivity.
              ** destruct (l =? 13) eqn:E3; [apply Z.eqb_eq in E3; subst l; cbn [app]; eexists; eexists; split; [reflexivity|reflexivity]|].
                 unfold esc1. destruct (l =? 92); [cbn [app]; eexists; eexists; split; [reflexivity|reflexivity]|].
                 destruct (l =? 40); [cbn [app]; eexists; eexists; split; [reflexivity|reflexivity]|].
                 destruct (l =? 41); [cbn [app]; eexists; eexists; split; [reflexivity|reflexivity]|].
                 rewrite E3. cbn [app]. eexists; eexists; split; [reflexivity|exact E2].
      * rewrite <- app_assoc, read_esc1, IH by lia.
        destruct (read_literal d (41 :: t)) as [[a b]|]; reflexivity.
Qed.

Lemma cell_operand_reads s rest :
  read_string ((40 :: cell_escape s ++ [41]) ++ rest) = Some (cr_to_lf s, rest).
Proof.
  unfold read_string. cbn [app]. rewrite Z.eqb_refl, <- app_assoc. cbn [app].
  rewrite (read_cell_escape_aux (length s)) by lia.
  cbn [read_literal]. cbn. now rewrite app_nil_r.
Qed.

Lemma cr_to_lf_nocr s : ~ In 13 s -> cr_to_lf s = s.
Proof.
  induction s as [|c s IH]; intros H; [reflexivity|]. cbn [cr_to_lf].
  replace (c =? 13) with false.
  - f_equal. apply IH. intros Hin. apply H. now right.
  - symmetry. apply Z.eqb_neq. intros ->. apply H. now left.
Qed.

(** * Bit masks as arithmetic *)
Lemma land_mask a n : 0 <= n -> Z.land a (2 ^ n - 1) = a mod 2 ^ n.
Proof. intros. rewrite <- Z.land_ones by lia. f_equal. rewrite Z.ones_equiv. lia. Qed.
Lemma land3 a : Z.land a 3 = a mod 4. Proof. exact (land_mask a 2 ltac:(lia)). Qed.
Lemma land15 a : Z.land a 15 = a mod 16. Proof. exact (land_mask a 4 ltac:(lia)). Qed.
Lemma land63 a : Z.land a 63 = a mod 64. Proof. exact (land_mask a 6 ltac:(lia)). Qed.
Lemma land60_2 a : Z.shiftr (Z.land a 60) 2 = (a / 4) mod 16.
Proof. rewrite Z.shiftr_land. change (Z.shiftr 60 2) with 15. rewrite land15, Z.shiftr_div_pow2 by lia. reflexivity. Qed.
Lemma land28_2 a : Z.shiftr (Z.land a 28) 2 = (a / 4) mod 8.
Proof. rewrite Z.shiftr_land. change (Z.shiftr 28 2) with (2^3-1). rewrite land_mask, Z.shiftr_div_pow2 by lia. reflexivity. Qed.
Lemma shl4 a : Z.shiftl a 4 = a * 16. Proof. now rewrite Z.shiftl_mul_pow2 by lia. Qed.
Lemma shl6 a : Z.shiftl a 6 = a * 64. Proof. now rewrite Z.shiftl_mul_pow2 by lia. Qed.

Lemma utf16_loop_bmp t :
  Forall (fun r => 0 <= r < 65536) t -> utf16_loop (utf8 t) = Ret (utf16be t).
Proof.
  induction 1 as [|r t Hr Ht IH]; [reflexivity|].
  cbn [utf8 utf16be flat_map]. fold (utf8 t). fold (utf16be t).
  unfold utf8_1, utf16be_1. replace (r <? 65536) with true by lia.
  destruct (r <? 128) eqn:E1.
  { cbn [app utf16_loop]. replace (224 <=? r) with false by lia. replace (192 <=? r) with false by lia.
    rewrite IH. cbn [obind]. do 2 f_equal; [lia|]. f_equal. lia. }
  destruct (r <? 2048) eqn:E2.
  { cbn [app utf16_loop]. replace (224 <=? 192 + r / 64) with false by lia.
    replace (192 <=? 192 + r / 64) with true by lia.
    rewrite IH. cbn [obind]. rewrite land28_2, land3, shl6, land63. unfold u8.
    do 2 f_equal; [lia|]. f_equal. lia. }
  cbn [app utf16_loop]. replace (224 <=? 224 + r / 4096) with true by lia.
  rewrite IH. cbn [obind]. rewrite land15, shl4, land60_2, land3, shl6, land63. unfold u8.
  do 2 f_equal; [lia|]. f_equal. lia.
Qed.

Lemma utf8toutf16_bmp t bom :
  Forall (fun r => 0 <= r < 65536) t ->
  utf8toutf16 (utf8 t) bom = Ret ((if bom then [254; 255] else []) ++ utf16be t).
Proof. intros H. unfold utf8toutf16. now rewrite utf16_loop_bmp. Qed.

(** Even output length and no panic exactly for complete sequences. *)
Fixpoint complete (s : bytes) : bool :=
  match s with
  | [] => true
  | c :: s1 => if 224 <=? c then match s1 with _ :: (_ :: s3) => complete s3 | _ => false end
               else if 192 <=? c then match s1 with _ :: s2 => complete s2 | _ => false end
               else complete s1
  end.

Lemma utf16_loop_total n s : (length s <= n)%nat ->
  match utf16_loop s with
  | Ret r => complete s = true /\ Z.even (Z.of_nat (length r)) = true
  | Panic => complete s = false
  | OutOfFuel => False
  end.
Proof.
  revert s; induction n as [|n IH]; intros s Hn.
  { destruct s; [split; reflexivity|simpl in Hn; lia]. }
  destruct s as [|c s]; [split; reflexivity|]. cbn [length] in Hn. cbn [utf16_loop complete].
  destruct (224 <=? c).
  - destruct s as [|c2 [|c3 s]]; [reflexivity|reflexivity|].
    specialize (IH s ltac:(simpl in Hn; lia)). destruct (utf16_loop s) as [r| |]; cbn [obind]; try assumption.
    destruct IH as [-> IH]. split; [reflexivity|]. cbn [length].
    rewrite !Nat2Z.inj_succ. now rewrite !Z.even_succ, Z.odd_succ.
  - destruct (192 <=? c).
    + destruct s as [|c2 s]; [reflexivity|].
      specialize (IH s ltac:(simpl in Hn; lia)). destruct (utf16_loop s) as [r| |]; cbn [obind]; try assumption.
      destruct IH as [-> IH]. split; [reflexivity|]. cbn [length].
      rewrite !Nat2Z.inj_succ. now rewrite !Z.even_succ, Z.odd_succ.
    + specialize (IH s ltac:(lia)). destruct (utf16_loop s) as [r| |]; cbn [obind]; try assumption.
      destruct IH as [-> IH]. split; [reflexivity|]. cbn [length].
      rewrite !Nat2Z.inj_succ. now rewrite !Z.even_succ, Z.odd_succ.
Qed.

(** * Runes *)
Lemma encode_rune_scalar r : scalar r -> encode_rune r = utf8_1 r.
Proof.
  intros H. unfold encode_rune, utf8_1, scalar in *.
  replace ((r <? 0) || (1114111 <? r) || ((55296 <=? r) && (r <=? 57343))) with false by lia.
  reflexivity.
Qed.

Lemma go_string_scalar t : Forall scalar t -> go_string t = utf8 t.
Proof.
  induction 1 as [|r t Hr Ht IH]; [reflexivity|].
  unfold go_string, utf8 in *. cbn [flat_map]. now rewrite encode_rune_scalar, IH.
Qed.

Lemma decode_utf8_1 r s : scalar r ->
  decode_rune (utf8_1 r ++ s) = (r, length (utf8_1 r)).
Proof.
  intros H. unfold utf8_1, scalar in *.
  destruct (r <? 128) eqn:E1.
  { cbn [app decode_rune length]. now rewrite E1. }
  destruct (r <? 2048) eqn:E2.
  { cbn [app decode_rune length]. replace (192 + r / 64 <? 128) with false by lia.
    replace (in_rng 194 223 (192 + r / 64)) with true by (unfold in_rng; lia).
    replace (cont (128 + r mod 64)) with true by (unfold cont; lia).
    f_equal. lia. }
  destruct (r <? 65536) eqn:E3.
  { cbn [app decode_rune length]. replace (224 + r / 4096 <? 128) with false by lia.
    replace (in_rng 194 223 (224 + r / 4096)) with false by (unfold in_rng; lia).
    replace (in_rng 224 239 (224 + r / 4096)) with true by (unfold in_rng; lia).
    replace (cont (128 + r mod 64)) with true by (unfold cont; lia).
    match goal with |- context[in_rng ?lo ?hi ?b && true] => replace (in_rng lo hi b) with true end.
    - cbn [andb]. f_equal. lia.
    - unfold in_rng. destruct (224 + r / 4096 =? 224) eqn:Ea; destruct (224 + r / 4096 =? 237) eqn:Eb; lia. }
  cbn [app decode_rune length].
  replace (240 + r / 262144 <? 128) with false by lia.
  replace (in_rng 194 223 (240 + r / 262144)) with false by (unfold in_rng; lia).
  replace (in_rng 224 239 (240 + r / 262144)) with false by (unfold in_rng; lia).
  replace (in_rng 240 244 (240 + r / 262144)) with true by (unfold in_rng; lia).
  replace (cont (128 + r mod 64)) with true by (unfold cont; lia).
  replace (cont (128 + (r / 64) mod 64)) with true by (unfold cont; lia).
  match goal with |- context[in_rng ?lo ?hi ?b && true] => replace (in_rng lo hi b) with true end.
  - cbn [andb]. f_equal. lia.
  - unfold in_rng. destruct (240 + r / 262144 =? 240) eqn:Ea; destruct (240 + r / 262144 =? 244) eqn:Eb; lia.
Qed.

Lemma runes_from_skip a s : runes_from (a ++ s) (length a) = runes_from s 0.
Proof. induction a as [|x a IH]; [reflexivity|]. exact IH. Qed.

Lemma utf8_1_cons r : exists b a, utf8_1 r = b :: a.
Proof. unfold utf8_1. destruct (r <? 128), (r <? 2048), (r <? 65536); eexists; eexists; reflexivity. Qed.

Lemma go_runes_cons_scalar r s : scalar r -> go_runes (utf8_1 r ++ s) = r :: go_runes s.
Proof.
  intros H. unfold go_runes. pose proof (decode_utf8_1 r s H) as D.
  destruct (utf8_1_cons r) as (b & a & E). rewrite E in *.
  cbn [app runes_from]. cbn [app length] in D. rewrite D. f_equal.
  replace (S (length a) - 1)%nat with (length a) by lia.
  apply runes_from_skip.
Qed.

Lemma go_runes_utf8 t : Forall scalar t -> go_runes (utf8 t) = t.
Proof.
  induction 1 as [|r t Hr Ht IH]; [reflexivity|].
  unfold utf8. cbn [flat_map]. fold (utf8 t). rewrite go_runes_cons_scalar by assumption.
  now rewrite IH.
Qed.

(** every decoded rune is a scalar value, whatever the bytes *)
Lemma decode_rune_scalar s : Forall is_byte s -> scalar (fst (decode_rune s)).
Proof.
  intros H. unfold scalar. destruct s as [|b0 t]; [cbn; lia|].
  inversion H as [|? ? Hb0 Ht]; subst. unfold is_byte in *.
  cbn [decode_rune]. unfold in_rng, cont.
  destruct (b0 <? 128) eqn:E1; [cbn; lia|].
  destruct ((194 <=? b0) && (b0 <=? 223)) eqn:E2.
  { destruct t as [|b1 t]; [cbn; lia|].
    destruct ((128 <=? b1) && (b1 <=? 191)) eqn:E3; cbn [fst]; [|lia].
    left. lia. }
  destruct ((224 <=? b0) && (b0 <=? 239)) eqn:E3.
  { destruct t as [|b1 [|b2 t]]; try (cbn; lia).
    match goal with |- context[if ?c then _ else _] => destruct c eqn:E4 end; cbn [fst]; [|lia].
    destruct (b0 =? 224) eqn:E5; destruct (b0 =? 237) eqn:E6; lia. }
  destruct ((240 <=? b0) && (b0 <=? 244)) eqn:E4.
  { destruct t as [|b1 [|b2 [|b3 t]]]; try (cbn; lia).
    match goal with |- context[if ?c then _ else _] => destruct c eqn:E5 end; cbn [fst]; [|lia].
    destruct (b0 =? 240) eqn:E6; destruct (b0 =? 244) eqn:E7; lia. }
  cbn; lia.
Qed.

Lemma Forall_tl {A} (P : A -> Prop) x l : Forall P (x :: l) -> Forall P l.
Proof. now inversion 1. Qed.

Lemma runes_from_scalar s k : Forall is_byte s -> Forall scalar (runes_from s k).
Proof.
  revert k; induction s as [|c s IH]; intros k H; [constructor|].
  destruct k as [|k].
  - cbn [runes_from]. pose proof (decode_rune_scalar (c :: s) H) as D.
    destruct (decode_rune (c :: s)) as [r w]. constructor; [exact D|].
    apply IH. now apply Forall_tl in H.
  - cbn [runes_from]. apply IH. now apply Forall_tl in H.
Qed.

Lemma go_runes_scalar s : Forall is_byte s -> Forall scalar (go_runes s).
Proof. apply runes_from_scalar. Qed.

Lemma reverse_text_utf8 t : Forall scalar t -> reverse_text (utf8 t) = utf8 (rev t).
Proof.
  intros H. unfold reverse_text. rewrite go_runes_utf8 by assumption.
  apply go_string_scalar. now apply Forall_rev.
Qed.

Lemma reverse_text_bytes s : Forall is_byte s ->
  reverse_text s = utf8 (rev (go_runes s)).
Proof. intros H. apply go_string_scalar, Forall_rev, go_runes_scalar, H. Qed.

Lemma reverse_text_invol t : Forall scalar t -> reverse_text (reverse_text (utf8 t)) = utf8 t.
Proof.
  intros H. rewrite reverse_text_utf8, reverse_text_utf8, rev_involutive; auto using Forall_rev.
Qed.

Lemma reverse_text_runes s : Forall is_byte s -> go_runes (reverse_text s) = rev (go_runes s).
Proof.
  intros H. rewrite reverse_text_bytes by exact H. apply go_runes_utf8, Forall_rev, go_runes_scalar, H.
Qed.

(** * Translator *)
Section Tr.
  Context {line : Type} (parse : line -> option (option (Z * Z))).

  Definition entries (ls : list line) : list (Z * Z) :=
    flat_map (fun l => match parse l with
                       | Some (Some (c, u)) => if 128 <=? c then [(u, u8 c)] else []
                       | _ => [] end) ls.

  Lemma translator_loop_map ls m err :
    fst (translator_loop line parse ls m err) = rev (entries ls) ++ m.
  Proof.
    revert m err. induction ls as [|l ls IH]; intros m err; [reflexivity|].
    cbn [translator_loop]. unfold entries. cbn [flat_map]. fold (entries ls).
    destruct (parse l) as [[[c u]|]|]; rewrite IH; cbn [app]; auto.
    destruct (128 <=? c); cbn [app]; [|reflexivity].
    change ((u, u8 c) :: entries ls) with ([(u, u8 c)] ++ entries ls).
    rewrite rev_app_distr. cbn [rev app]. now rewrite <- app_assoc.
  Qed.

  Lemma translator_loop_err ls m err :
    snd (translator_loop line parse ls m err) =
    fold_left (fun e l => match parse l with None => true | Some None => e | Some (Some _) => false end) ls err.
  Proof.
    revert m err. induction ls as [|l ls IH]; intros m err; [reflexivity|].
    cbn [translator_loop fold_left]. destruct (parse l) as [[[c u]|]|]; apply IH.
  Qed.

  Definition no_bad (ls : list line) : Prop := Forall (fun l => parse l <> None) ls.

  Lemma no_bad_err ls : no_bad ls ->
    fold_left (fun e l => match parse l with None => true | Some None => e | Some (Some _) => false end) ls false = false.
  Proof.
    induction 1 as [|l ls Hl Hls IH]; [reflexivity|]. cbn [fold_left].
    destruct (parse l) as [[[c u]|]|]; [exact IH|exact IH|congruence].
  Qed.

  Lemma unicode_translator_ok ls : no_bad ls ->
    unicode_translator line parse ls = (rep_closure (rev (entries ls)), false).
  Proof.
    intros H. unfold unicode_translator.
    pose proof (translator_loop_map ls [] false) as Hm.
    pose proof (translator_loop_err ls [] false) as He.
    destruct (translator_loop line parse ls [] false) as [m e]. cbn [fst snd] in *.
    rewrite no_bad_err in He by exact H. subst. now rewrite app_nil_r.
  Qed.
End Tr.

Lemma rmap_get_app m1 m2 k : rmap_get (m1 ++ m2) k =
  match rmap_get m1 k with Some v => Some v | None => rmap_get m2 k end.
Proof.
  induction m1 as [|[k' v] m1 IH]; [reflexivity|]. cbn [app rmap_get].
  destruct (k =? k'); [reflexivity|exact IH].
Qed.

Lemma rmap_get_In m k v : rmap_get m k = Some v -> In (k, v) m.
Proof.
  induction m as [|[k' v'] m IH]; [discriminate|]. cbn [rmap_get].
  destruct (k =? k') eqn:E; intros H.
  - apply Z.eqb_eq in E. injection H as ->. subst. now left.
  - right. now apply IH.
Qed.

Lemma rmap_get_None m k : rmap_get m k = None <-> ~ In k (map fst m).
Proof.
  induction m as [|[k' v'] m IH]; [now split; auto|]. cbn [rmap_get map fst In].
  destruct (k =? k') eqn:E.
  - apply Z.eqb_eq in E. split; [discriminate|]. intros H. exfalso. apply H. now left.
  - apply Z.eqb_neq in E. rewrite IH. split; intros H; [intros [F|F]; [congruence|now apply H]|].
    intros F. apply H. now right.
Qed.

Lemma rep_closure_length m t : Forall scalar t -> length (rep_closure m (utf8 t)) = length t.
Proof. intros H. unfold rep_closure. now rewrite map_length, go_runes_utf8. Qed.
