(** Lemmas about the writer of TrueType files. *)
From Verif Require Import Base DocModel DocSort TtfSpec TtfModel.
From Coq Require Import String Permutation Sorted.
Open Scope Z_scope.
Notation length := List.length.

(** ** Fields *)
Lemma byte_app (a b : bytes) k : 0 <= k -> byte_at (a ++ b) (Z.of_nat (length a) + k) = byte_at b k.
Proof. intros H. unfold byte_at. rewrite app_nth2 by lia. f_equal. lia. Qed.
Lemma u16_app (a b : bytes) k : 0 <= k -> u16 (a ++ b) (Z.of_nat (length a) + k) = u16 b k.
Proof. intros H. unfold u16. rewrite byte_app by lia. replace (Z.of_nat (length a) + k + 1) with (Z.of_nat (length a) + (k + 1)) by lia. now rewrite byte_app by lia. Qed.
Lemma u32_app (a b : bytes) k : 0 <= k -> u32 (a ++ b) (Z.of_nat (length a) + k) = u32 b k.
Proof. intros H. unfold u32. rewrite u16_app by lia. replace (Z.of_nat (length a) + k + 2) with (Z.of_nat (length a) + (k + 2)) by lia. now rewrite u16_app by lia. Qed.
Lemma extract_app (a b c : bytes) : extract (a ++ b ++ c) (Z.of_nat (length a)) (Z.of_nat (length b)) = b.
Proof.
  unfold extract. rewrite !Nat2Z.id. rewrite skipn_app, skipn_all, Nat.sub_diag. cbn.
  rewrite firstn_app, firstn_all, Nat.sub_diag. cbn. now rewrite app_nil_r.
Qed.
Lemma pack16_u16 n t : u16 (pack16 n ++ t) 0 = n mod 65536.
Proof. unfold u16, byte_at, pack16. cbn [app]. change (Z.to_nat 0) with 0%nat. change (Z.to_nat (0 + 1)) with 1%nat. cbn [nth].
  pose proof (Z.div_mod n 256). pose proof (Z.mod_pos_bound n 256). pose proof (Z.div_mod (n / 256) 256). pose proof (Z.mod_pos_bound (n / 256) 256).
  apply Z.mod_unique with (n / 256 / 256); lia. Qed.
Lemma pack32_pack16 n : pack32 n = pack16 (n / 65536) ++ pack16 n.
Proof. unfold pack32, pack16. cbn [app]. now rewrite Z.div_div by lia. Qed.
Lemma u16_skip2 a b t k : 0 <= k -> u16 (a :: b :: t) (k + 2) = u16 t k.
Proof. intros H. change (a :: b :: t) with ([a; b] ++ t). replace (k + 2) with (2 + k) by lia. exact (u16_app [a; b] t k H). Qed.
Lemma u32_pair x y t : u32 (pack16 x ++ pack16 y ++ t) 0 = (x mod 65536) * 65536 + y mod 65536.
Proof. unfold u32. rewrite pack16_u16. f_equal. unfold pack16 at 1. cbn [app]. rewrite (u16_skip2 _ _ _ 0) by lia. apply pack16_u16. Qed.
Lemma u32_pack32 n t : 0 <= n < 2 ^ 32 -> u32 (pack32 n ++ t) 0 = n.
Proof.
  intros H. rewrite pack32_pack16, <- app_assoc, u32_pair. rewrite (Z.mod_small (n / 65536)).
  - rewrite (Z.mul_comm (n / 65536)). symmetry. apply Z.div_mod. lia.
  - split; [apply Z.div_pos; lia|]. apply Z.div_lt_upper_bound; lia.
Qed.

(** ** Checksums *)
Lemma four_ind (P : bytes -> Prop) : P [] -> (forall a, P [a]) -> (forall a b, P [a; b]) -> (forall a b c, P [a; b; c]) ->
  (forall a b c d t, P t -> P (a :: b :: c :: d :: t)) -> forall s, P s.
Proof.
  intros H0 H1 H2 H3 H4 s. assert (G : forall n s, (length s <= n)%nat -> P s).
  { induction n as [|n IH]; intros [|a [|b [|c [|d t]]]] L; auto; cbn in L; try lia. apply H4, IH. lia. }
  apply (G (length s)). lia.
Qed.
Lemma land16 x : Z.land x 65535 = x mod 65536.
Proof. change 65535 with (Z.ones 16). now rewrite Z.land_ones by lia. Qed.
Lemma words_sum_pad s : words_sum (pad4 s) = words_sum s.
Proof.
  unfold pad4. induction s as [|a|a b|a b c|a b c d t IH] using four_ind; cbn [length].
  - reflexivity.
  - change (Z.to_nat ((- Z.of_nat 1) mod 4)) with 3%nat. cbn [repeat app words_sum]. lia.
  - change (Z.to_nat ((- Z.of_nat 2) mod 4)) with 2%nat. cbn [repeat app words_sum]. lia.
  - change (Z.to_nat ((- Z.of_nat 3) mod 4)) with 1%nat. cbn [repeat app words_sum]. lia.
  - rewrite !Nat2Z.inj_succ. replace ((- Z.succ (Z.succ (Z.succ (Z.succ (Z.of_nat (length t)))))) mod 4) with ((- Z.of_nat (length t)) mod 4).
    + cbn [app words_sum]. now rewrite IH.
    + replace (- Z.succ (Z.succ (Z.succ (Z.succ (Z.of_nat (length t)))))) with (- Z.of_nat (length t) + (-1) * 4) by lia. now rewrite Z.mod_add.
Qed.
Lemma sum_loop_spec : forall (s : bytes) a0 a1, 0 <= a0 < 65536 -> 0 <= a1 < 65536 -> Forall is_byte s -> (Z.of_nat (length s) mod 4 = 0) ->
  let r := sum_loop s (a0, a1) in
  0 <= fst r < 65536 /\ 0 <= snd r < 65536 /\ fst r * 65536 + snd r = (a0 * 65536 + a1 + words_sum s) mod 2 ^ 32.
Proof.
  induction s as [|a|a b|a b c|a b c d t IH] using four_ind; intros a0 a1 H0 H1 HB HL; cbn zeta; try (cbn in HL; discriminate).
  - cbn. rewrite Z.add_0_r, Z.mod_small by lia. lia.
  - cbn [sum_loop fst snd words_sum]. rewrite !land16, Z.shiftr_div_pow2 by lia. change (2 ^ 16) with 65536.
    inversion HB as [|? ? Ha HB1]; subst. inversion HB1 as [|? ? Hb HB2]; subst. inversion HB2 as [|? ? Hc HB3]; subst. inversion HB3 as [|? ? Hd HB4]; subst.
    unfold is_byte in *. set (lo := a1 + (c * 256 + d)) in *. set (hi := a0 + (a * 256 + b)) in *.
    destruct (IH ((hi + lo / 65536) mod 65536) (lo mod 65536)) as (R0 & R1 & R2).
    + apply Z.mod_pos_bound. lia.
    + apply Z.mod_pos_bound. lia.
    + exact HB4.
    + cbn [length] in HL. rewrite !Nat2Z.inj_succ in HL. replace (Z.succ (Z.succ (Z.succ (Z.succ (Z.of_nat (length t)))))) with (Z.of_nat (length t) + 1 * 4) in HL by lia. now rewrite Z.mod_add in HL by lia.
    + split; [exact R0|]. split; [exact R1|]. rewrite R2. clear R0 R1 R2 IH.
      assert (E : (hi + lo / 65536) mod 65536 * 65536 + lo mod 65536 = (hi * 65536 + lo) mod 2 ^ 32).
      { change (2 ^ 32) with (65536 * 65536). rewrite (Z.rem_mul_r (hi * 65536 + lo)) by lia. rewrite (Z.add_comm (hi * 65536)), Z.mod_add by lia.
        rewrite Z.div_add by lia. rewrite (Z.add_comm (lo / 65536)). lia. }
      rewrite E, Z.add_mod_idemp_l by lia. f_equal. unfold lo, hi. lia.
Qed.
Lemma pad4_length s : Z.of_nat (length (pad4 s)) mod 4 = 0.
Proof.
  unfold pad4. rewrite app_length, repeat_length, Nat2Z.inj_add, Z2Nat.id by (apply Z.mod_pos_bound; lia).
  rewrite Z.add_mod_idemp_r by lia. now rewrite Z.add_opp_diag_r.
Qed.
Lemma repeat0_bytes n : Forall is_byte (repeat 0 n).
Proof. induction n; constructor; auto. unfold is_byte. lia. Qed.
Lemma generate_checksum_spec s : Forall is_byte s -> let r := generate_checksum s in
  0 <= fst r < 65536 /\ 0 <= snd r < 65536 /\ fst r * 65536 + snd r = checksum32 s.
Proof.
  intros H. unfold generate_checksum, checksum32. pose proof (sum_loop_spec (pad4 s) 0 0) as G. cbn zeta in G. rewrite words_sum_pad in G.
  apply G; try lia. apply Forall_app; split; [exact H|apply repeat0_bytes]. apply pad4_length.
Qed.
Lemma words_sum_app (a b : bytes) : Z.of_nat (length a) mod 4 = 0 -> words_sum (a ++ b) = words_sum a + words_sum b.
Proof.
  induction a as [|x|x y|x y z|x y z u t IH] using four_ind; intros H; try (cbn in H; discriminate).
  - reflexivity.
  - cbn [app words_sum]. rewrite IH; [lia|]. cbn [length] in H. rewrite !Nat2Z.inj_succ in H.
    replace (Z.succ (Z.succ (Z.succ (Z.succ (Z.of_nat (length t)))))) with (Z.of_nat (length t) + 1 * 4) in H by lia. now rewrite Z.mod_add in H by lia.
Qed.

(** ** Layout *)
Definition plen (d : bytes) : Z := padded (Z.of_nat (length d)).
Lemma padded_eq n : 0 <= n -> padded n = n + (- n) mod 4.
Proof.
  intros H. unfold padded. change (Z.lnot 3) with (Z.lnot (Z.ones 2)). rewrite <- Z.ldiff_land, Z.ldiff_ones_r by lia.
  rewrite Z.shiftr_div_pow2, Z.shiftl_mul_pow2 by lia. change (2 ^ 2) with 4.
  pose proof (Z.div_mod (n + 3) 4). pose proof (Z.div_mod (- n) 4). pose proof (Z.mod_pos_bound (n + 3) 4). pose proof (Z.mod_pos_bound (- n) 4). lia.
Qed.
Lemma padded_data_eq d : padded_data d = pad4 d.
Proof.
  unfold padded_data, pad4. rewrite app_length. cbn [length].
  replace (Z.of_nat (length d + 3)) with (Z.of_nat (length d) + 3) by lia. fold (padded (Z.of_nat (length d))). rewrite padded_eq by lia.
  assert (B := Z.mod_pos_bound (- Z.of_nat (length d)) 4). rewrite Z2Nat.inj_add, Nat2Z.id by lia. rewrite firstn_app_2. f_equal.
  assert ((- Z.of_nat (length d)) mod 4 = 0 \/ (- Z.of_nat (length d)) mod 4 = 1 \/ (- Z.of_nat (length d)) mod 4 = 2 \/ (- Z.of_nat (length d)) mod 4 = 3) as [E|[E|[E|E]]] by lia; rewrite E; reflexivity.
Qed.
Lemma pad4_len d : Z.of_nat (length (pad4 d)) = plen d.
Proof. unfold pad4, plen. rewrite padded_eq by lia. rewrite app_length, repeat_length. assert (B := Z.mod_pos_bound (- Z.of_nat (length d)) 4). lia. Qed.
Lemma plen_mod d : plen d mod 4 = 0.
Proof. rewrite <- pad4_len. apply pad4_length. Qed.
Lemma plen_ge d : Z.of_nat (length d) <= plen d.
Proof. unfold plen. rewrite padded_eq by lia. assert (B := Z.mod_pos_bound (- Z.of_nat (length d)) 4). lia. Qed.

Definition total (ts : list (bytes * bytes)) : Z := fold_right (fun t a => plen (snd t) + a) 0 ts.
Lemma total_app a b : total (a ++ b) = total a + total b.
Proof. induction a as [|t a IH]; [reflexivity|]. cbn [app total fold_right] in *. fold (total (a ++ b)) (total a) in *. lia. Qed.
Lemma total_mod ts : total ts mod 4 = 0.
Proof. induction ts as [|t ts IH]; [reflexivity|]. cbn [total fold_right]. fold (total ts). rewrite Z.add_mod, IH, plen_mod by lia. reflexivity. Qed.
Lemma total_pos ts : 0 <= total ts.
Proof. induction ts as [|t ts IH]; [cbn; lia|]. cbn [total fold_right]. fold (total ts). pose proof (plen_ge (snd t)). lia. Qed.
Definition data_of (ts : list (bytes * bytes)) : bytes := flat_map (fun t => pad4 (snd t)) ts.
Lemma data_len ts : Z.of_nat (length (data_of ts)) = total ts.
Proof. induction ts as [|t ts IH]; [reflexivity|]. cbn [data_of flat_map total fold_right]. fold (data_of ts) (total ts). rewrite app_length, Nat2Z.inj_add, pad4_len. lia. Qed.
Lemma data_of_app a b : data_of (a ++ b) = data_of a ++ data_of b.
Proof. apply flat_map_app. Qed.

Fixpoint dir_of (offset : Z) (ts : list (bytes * bytes)) : bytes :=
  match ts with [] => [] | t :: r => dir_entry offset t ++ dir_of (offset + plen (snd t)) r end.
Lemma dir_entries_fst : forall ts o b, fst (dir_entries o b ts) = dir_of o ts.
Proof.
  induction ts as [|t r IH]; intros o b; [reflexivity|]. cbn [dir_entries dir_of]. fold (plen (snd t)).
  specialize (IH (o + plen (snd t)) (if beqb (fst t) (bs "head") then o else b)). destruct (dir_entries _ _ r) as [x y]. cbn [fst] in *. now rewrite IH.
Qed.
Lemma dir_entries_none : forall ts o b, ~ In (bs "head") (map fst ts) -> snd (dir_entries o b ts) = b.
Proof.
  induction ts as [|t r IH]; intros o b H; [reflexivity|]. cbn [dir_entries]. specialize (IH (o + padded (Z.of_nat (length (snd t)))) b).
  destruct (beqb (fst t) (bs "head")) eqn:E; [apply beqb_eq in E; exfalso; apply H; left; exact E|].
  destruct (dir_entries _ _ r) as [x y]. cbn [snd] in *. apply IH. intros X. apply H. right. exact X.
Qed.
Lemma dir_entries_snd : forall h1 d h2 o b, NoDup (map fst (h1 ++ (bs "head", d) :: h2)) ->
  snd (dir_entries o b (h1 ++ (bs "head", d) :: h2)) = o + total h1.
Proof.
  induction h1 as [|t r IH]; intros d h2 o b H.
  - cbn [app dir_entries fst snd]. rewrite beqb_refl. cbn [app map fst] in H. inversion H as [|? ? N _]; subst.
    pose proof (dir_entries_none h2 (o + padded (Z.of_nat (length d))) o N) as G. destruct (dir_entries _ _ h2) as [x y]. cbn in *. lia.
  - cbn [app dir_entries]. cbn [app map] in H. inversion H as [|? ? N H']; subst.
    specialize (IH d h2 (o + padded (Z.of_nat (length (snd t)))) (if beqb (fst t) (bs "head") then o else b) H').
    destruct (dir_entries _ _ (r ++ _)) as [x y]. cbn [snd] in *. rewrite IH. cbn [total fold_right]. fold (total r). unfold plen. lia.
Qed.
Lemma dir_entry_len o (t : bytes * bytes) : length (fst t) = 4%nat -> length (dir_entry o t) = 16%nat.
Proof. intros H. unfold dir_entry. destruct (generate_checksum (snd t)) as [c0 c1]. rewrite app_length, H. reflexivity. Qed.
Lemma dir_len : forall ts o, Forall (fun t : bytes * bytes => length (fst t) = 4%nat) ts -> Z.of_nat (length (dir_of o ts)) = 16 * Z.of_nat (length ts).
Proof.
  induction ts as [|t r IH]; intros o H; [reflexivity|]. inversion H; subst. cbn [dir_of]. rewrite app_length, Nat2Z.inj_add, IH, dir_entry_len by assumption. cbn [length]. lia.
Qed.
Lemma dir_of_app : forall a b o, dir_of o (a ++ b) = dir_of o a ++ dir_of (o + total a) b.
Proof.
  induction a as [|t a IH]; intros b o; [cbn; now rewrite Z.add_0_r|]. cbn [app dir_of total fold_right]. fold (total a). rewrite IH, <- app_assoc. do 3 f_equal. lia.
Qed.

(** ** The file *)
Lemma splice_mid (a x b v : bytes) : length x = length v -> splice (a ++ x ++ b) (Z.of_nat (length a)) v = Ret (a ++ v ++ b).
Proof.
  intros H. unfold splice, slice. rewrite !app_length, !Nat2Z.inj_add, H.
  replace (_ && _ && _) with true by lia. replace (_ && _ && _) with true by lia.
  rewrite Z.sub_0_r, Nat2Z.id. cbn [Z.to_nat skipn]. rewrite firstn_app, firstn_all, Nat.sub_diag. cbn [firstn]. rewrite app_nil_r.
  do 3 f_equal. rewrite <- H. replace (Z.to_nat (Z.of_nat (length a) + Z.of_nat (length x))) with (length (a ++ x)) by (rewrite app_length; lia).
  rewrite app_assoc, skipn_app, skipn_all, Nat.sub_diag. cbn [app skipn].
  apply firstn_all2. lia.
Qed.
Lemma pow2_loop_spec : forall fuel n size w k, 0 <= w -> k = w -> size = 2 ^ k -> size <= n -> n < size * 2 ^ Z.of_nat fuel ->
  exists j, pow2_loop fuel n size w = (2 ^ j, j) /\ 0 <= j /\ 2 ^ j <= n < 2 ^ (j + 1).
Proof.
  induction fuel as [|f IH]; intros n size w k Hw -> -> H1 H2.
  - cbn in H2. lia.
  - cbn [pow2_loop]. destruct (Z.leb_spec (2 ^ w * 2) n).
    + apply (IH n (2 ^ w * 2) (w + 1) (w + 1)); try lia.
      * rewrite Z.pow_add_r by lia. lia.
      * rewrite Nat2Z.inj_succ, Z.pow_succ_r in H2 by lia. lia.
    + exists w. split; [reflexivity|]. split; [exact Hw|]. rewrite Z.pow_add_r by lia. lia.
Qed.

Definition sorted_tables (tables : list (bytes * bytes)) : list (bytes * bytes) := sort_by (fun a b => bltb (fst a) (fst b)) tables.
Lemma sorted_perm tables : Permutation (sorted_tables tables) tables.
Proof. apply sort_by_perm. Qed.
Definition head_size (count : Z) (k : Z) : bytes := pack_header 65536 count (2 ^ k * 16) k (count * 16 - 2 ^ k * 16).
Lemma skipn_skipn' {A} a b (l : list A) : skipn a (skipn b l) = skipn (b + a) l.
Proof. revert l. induction b as [|b IH]; intros l; [reflexivity|]. destruct l; [now rewrite !skipn_nil|]. cbn. apply IH. Qed.
Lemma assemble_layout (tables : list (bytes * bytes)) (hd : bytes) : NoDup (map fst tables) -> In (bs "head", hd) tables -> 12 <= Z.of_nat (length hd) ->
  Forall (fun t : bytes * bytes => length (fst t) = 4%nat) tables ->
  exists k h1 x y z h2 a0 a1, 0 <= k /\ 2 ^ k <= Z.of_nat (length tables) < 2 ^ (k + 1) /\
    sorted_tables tables = h1 ++ (bs "head", hd) :: h2 /\ hd = x ++ y ++ z /\ length x = 8%nat /\ length y = 4%nat /\
    let n := Z.of_nat (length tables) in
    let start := head_size n k ++ dir_of (12 + 16 * n) (sorted_tables tables) in
    (a0, a1) = calc_int32 (45488, 44986) (generate_checksum (start ++ data_of (sorted_tables tables))) /\
    assemble tables = Ret (start ++ data_of (h1 ++ (bs "head", x ++ (pack16 a0 ++ pack16 a1) ++ z) :: h2)).
Proof.
  intros HN HI HL H4. unfold assemble.
  destruct (pow2_loop_spec (S (length tables)) (Z.of_nat (length tables)) 1 0 0) as (k & Ek & Hk & Hk2); try lia.
  { destruct tables; [destruct HI|]. cbn [length]. lia. }
  { rewrite Nat2Z.inj_succ. rewrite Z.mul_1_l. apply Z.lt_le_trans with (2 ^ Z.of_nat (length tables)); [apply Z.pow_gt_lin_r; lia|apply Z.pow_le_mono_r; lia]. }
  rewrite Ek. fold (sorted_tables tables). set (n := Z.of_nat (length tables)) in *. set (ts := sorted_tables tables) in *.
  assert (HP : Permutation ts tables) by apply sorted_perm.
  assert (HI' : In (bs "head", hd) ts) by (eapply Permutation_in; [symmetry; exact HP|exact HI]).
  apply in_split in HI' as (h1 & h2 & Ets).
  exists k, h1, (firstn 8 hd), (firstn 4 (skipn 8 hd)), (skipn 12 hd), h2.
  assert (Ehd : hd = firstn 8 hd ++ firstn 4 (skipn 8 hd) ++ skipn 12 hd).
  { rewrite <- (firstn_skipn 8 hd) at 1. f_equal. rewrite <- (firstn_skipn 4 (skipn 8 hd)) at 1. f_equal. now rewrite skipn_skipn'. }
  assert (E : dir_entries (12 + n * 16) 0 ts = (dir_of (12 + 16 * n) ts, 12 + 16 * n + total h1)).
  { rewrite (surjective_pairing (dir_entries _ _ _)), dir_entries_fst. replace (12 + n * 16) with (12 + 16 * n) by lia. f_equal.
    rewrite Ets, dir_entries_snd; [reflexivity|]. rewrite <- Ets. eapply Permutation_NoDup; [|exact HN]. apply Permutation_map. now symmetry. }
  rewrite E. unfold head_size. replace (flat_map (fun t => padded_data (snd t)) ts) with (data_of ts) by (apply flat_map_ext; intros; symmetry; apply padded_data_eq).
  replace (2 ^ k * 16) with (16 * 2 ^ k) by lia. replace (n * 16) with (16 * n) by lia.
  set (hdr := pack_header _ _ _ _ _). rewrite (app_assoc hdr (dir_of (12 + 16 * n) ts) (data_of ts)). set (start := hdr ++ dir_of (12 + 16 * n) ts). cbn zeta.
  destruct (calc_int32 _ _) as [a0 a1]. exists a0, a1.
  repeat (split; [first [exact Hk|exact Hk2|exact Ets|exact Ehd|reflexivity|rewrite firstn_length, ?skipn_length; lia]|]).
  assert (HS : Z.of_nat (length start) = 12 + 16 * n).
  { unfold start. rewrite app_length, Nat2Z.inj_add, dir_len; [|eapply Permutation_Forall; [symmetry; exact HP|exact H4]].
    replace (length ts) with (length tables) by (apply Permutation_length; now symmetry). reflexivity. }
  rewrite Ets at 1. clearbody start. rewrite !data_of_app. cbn [data_of flat_map snd]. fold (data_of h1) (data_of h2).
  replace (12 + 16 * n + total h1 + 8) with (Z.of_nat (length (start ++ data_of h1 ++ firstn 8 hd))).
  2:{ rewrite !app_length, !Nat2Z.inj_add, HS, data_len, firstn_length. lia. }
  unfold pad4. rewrite Ehd at 1.
  replace (start ++ data_of h1 ++ ((firstn 8 hd ++ firstn 4 (skipn 8 hd) ++ skipn 12 hd) ++ repeat 0 (Z.to_nat (- Z.of_nat (length hd) mod 4))) ++ data_of h2)
    with ((start ++ data_of h1 ++ firstn 8 hd) ++ firstn 4 (skipn 8 hd) ++ skipn 12 hd ++ repeat 0 (Z.to_nat (- Z.of_nat (length hd) mod 4)) ++ data_of h2) by (now rewrite !app_assoc).
  rewrite splice_mid.
  2:{ rewrite firstn_length, skipn_length. change (length (pack16 a0 ++ pack16 a1)) with 4%nat. lia. }
  f_equal. replace (length (firstn 8 hd ++ (pack16 a0 ++ pack16 a1) ++ skipn 12 hd)) with (length hd); [now rewrite !app_assoc|].
  rewrite !app_length, firstn_length, skipn_length. change (length (pack16 a0)) with 2%nat. change (length (pack16 a1)) with 2%nat. lia.
Qed.
