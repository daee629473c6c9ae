(** C39 and C50: the file written for a subset font. *)
From Verif Require Import Base DocModel DocSort TtfSpec TtfModel TtfProofs.
From Coq Require Import String Permutation Sorted.
Open Scope Z_scope.
Notation length := List.length.

(** ** Reading the directory back *)
Section Read.
  Variables (hdr D : bytes) (ts l1 l2 : list (bytes * bytes)) (name data : bytes).
  Hypothesis Hhdr : Z.of_nat (length hdr) = 12.
  Hypothesis Ets : ts = l1 ++ (name, data) :: l2.
  Hypothesis H4 : Forall (fun t : bytes * bytes => length (fst t) = 4%nat) ts.
  Variable o : Z.
  Let file := (hdr ++ dir_of o ts) ++ D.
  Let i := Z.of_nat (length l1).
  Hypothesis HB : Forall is_byte data.
  Hypothesis Hsz : 0 <= o + total l1 < 2 ^ 32 /\ Z.of_nat (length data) < 2 ^ 32.

  Lemma entry_shape : exists A B, file = A ++ (name ++ (pack16 (fst (generate_checksum data)) ++ pack16 (snd (generate_checksum data)) ++ (pack32 (o + total l1) ++ pack32 (Z.of_nat (length data))))) ++ B
    /\ Z.of_nat (length A) = 12 + 16 * i /\ length name = 4%nat.
  Proof.
    exists (hdr ++ dir_of o l1), (dir_of (o + total l1 + plen data) l2 ++ D). unfold file. rewrite Ets, dir_of_app in *. cbn [dir_of snd]. unfold dir_entry. cbn [fst snd].
    apply Forall_app in H4 as [F1 F2]. inversion F2 as [|? ? Hn _]; subst.
    destruct (generate_checksum data) as [c0 c1]. cbn [fst snd]. split; [now rewrite <- !app_assoc|]. split; [|exact Hn].
    rewrite app_length, Nat2Z.inj_add, dir_len by assumption. unfold i. lia.
  Qed.
  Lemma read_entry : tag file i = name /\ tsum file i = checksum32 data /\ toff file i = o + total l1 /\ tlen file i = Z.of_nat (length data).
  Proof.
    destruct entry_shape as (A & B & E & LA & Ln). pose proof (generate_checksum_spec data HB) as (C0 & C1 & C2). cbn zeta in *.
    destruct (generate_checksum data) as [c0 c1]. cbn [fst snd] in *.
    unfold tag, tsum, toff, tlen. rewrite E, <- LA. split; [|split; [|split]].
    - rewrite <- (app_assoc name). replace 4 with (Z.of_nat (length name)) by lia. apply extract_app.
    - rewrite u32_app by lia. rewrite <- (app_assoc name). replace 4 with (Z.of_nat (length name) + 0) by lia. rewrite u32_app by lia.
      rewrite <- !app_assoc. rewrite u32_pair, !Z.mod_small by lia. exact C2.
    - rewrite u32_app by lia. rewrite <- (app_assoc name). replace 8 with (Z.of_nat (length name) + 4) by lia. rewrite u32_app by lia.
      rewrite <- !app_assoc. rewrite (app_assoc (pack16 c0)). replace 4 with (Z.of_nat (length (pack16 c0 ++ pack16 c1)) + 0) by reflexivity. rewrite u32_app by lia.
      apply u32_pack32. lia.
    - rewrite u32_app by lia. rewrite <- (app_assoc name). replace 12 with (Z.of_nat (length name) + 8) by lia. rewrite u32_app by lia.
      rewrite <- !app_assoc. rewrite (app_assoc (pack16 c0)), (app_assoc _ (pack32 (o + total l1))).
      replace 8 with (Z.of_nat (length ((pack16 c0 ++ pack16 c1) ++ pack32 (o + total l1))) + 0) by reflexivity. rewrite u32_app by lia.
      apply u32_pack32. lia.
  Qed.
End Read.

Lemma header_fields a n1 n2 n3 n4 t : let s := pack_header a n1 n2 n3 n4 ++ t in
  u16 s 6 = n2 mod 65536 /\ u16 s 8 = n3 mod 65536 /\ u16 s 10 = n4 mod 65536.
Proof.
  cbn zeta. unfold pack_header. rewrite <- !app_assoc. split; [|split].
  - change 6 with (Z.of_nat (length (pack32 a ++ pack16 n1)) + 0). rewrite (app_assoc (pack32 a)), u16_app by lia. apply pack16_u16.
  - change 8 with (Z.of_nat (length ((pack32 a ++ pack16 n1) ++ pack16 n2)) + 0). rewrite (app_assoc (pack32 a)), (app_assoc _ (pack16 n2)), u16_app by lia. apply pack16_u16.
  - change 10 with (Z.of_nat (length (((pack32 a ++ pack16 n1) ++ pack16 n2) ++ pack16 n3)) + 0). rewrite (app_assoc (pack32 a)), (app_assoc _ (pack16 n2)), (app_assoc _ (pack16 n3)), u16_app by lia. apply pack16_u16.
Qed.
Lemma nodup_app_r {A} (a b : list A) : NoDup (a ++ b) -> NoDup b.
Proof. induction a as [|x a IH]; [auto|]. cbn. inversion 1; auto. Qed.
Definition indexes (n : nat) : list Z := map Z.of_nat (seq 0 n).
Lemma split_at {A} (l : list A) i : (i < length l)%nat -> exists a x b, l = a ++ x :: b /\ length a = i.
Proof. intros H. destruct (nth_error l i) as [x|] eqn:E; [|apply nth_error_None in E; lia]. apply nth_error_split in E as (a & b & -> & L). now exists a, x, b. Qed.
(** the tables with the adjusted head have the same names and lengths *)
Inductive same_shape : list (bytes * bytes) -> list (bytes * bytes) -> Prop :=
| ss_nil : same_shape [] []
| ss_cons n d d' r r' : length d = length d' -> same_shape r r' -> same_shape ((n, d) :: r) ((n, d') :: r').
Lemma ss_total a b : same_shape a b -> total a = total b.
Proof. induction 1 as [|n d d' r r' H _ IH]; [reflexivity|]. cbn [total fold_right snd]. fold (total r) (total r'). unfold plen. rewrite H. lia. Qed.

(** ** C50 *)
Theorem C50_table_directory : forall (tables : list (bytes * bytes)) (hd : bytes),
  NoDup (map fst tables) -> Forall (fun t : bytes * bytes => length (fst t) = 4%nat /\ Forall is_byte (snd t)) tables ->
  In (bs "head", hd) tables -> 12 <= Z.of_nat (length hd) -> Z.of_nat (length tables) < 4096 ->
  exists file, assemble tables = Ret file /\
    (Z.of_nat (length file) < 2 ^ 32 ->
     let n := Z.of_nat (length tables) in
     u32 file 0 = 65536 /\ num_tables file = n /\
     (exists k, 0 <= k /\ 2 ^ k <= n < 2 ^ (k + 1) /\ u16 file 6 = 16 * 2 ^ k /\ u16 file 8 = k /\ u16 file 10 = 16 * n - 16 * 2 ^ k) /\
     Permutation (map (tag file) (indexes (length tables))) (map fst tables) /\
     (forall i j, 0 <= i < j -> j < n -> bltb (tag file i) (tag file j) = true /\ toff file i + tlen file i <= toff file j) /\
     (forall i, 0 <= i < n -> exists data, In (tag file i, data) tables /\
        tlen file i = Z.of_nat (length data) /\ tsum file i = checksum32 data /\
        toff file i mod 4 = 0 /\ 12 + 16 * n <= toff file i /\ toff file i + tlen file i <= Z.of_nat (length file) /\
        (tag file i <> bs "head" -> tdata file i = data) /\
        (tag file i = bs "head" -> exists adj, length adj = 4%nat /\ tdata file i = firstn 8 data ++ adj ++ skipn 12 data))).
Proof.
  intros tables hd HN HF HI HL Hn.
  assert (H4 : Forall (fun t : bytes * bytes => length (fst t) = 4%nat) tables) by (eapply Forall_impl; [|exact HF]; intros ? [? ?]; assumption).
  destruct (assemble_layout tables hd HN HI HL H4) as (k & h1 & x & y & z & h2 & a0 & a1 & Hk & Hk2 & Ets & Ehd & Lx & Ly & Ea & Ef).
  cbn zeta in Ea, Ef. eexists. split; [exact Ef|]. clear Ef Ea. set (n := Z.of_nat (length tables)) in *. set (ts := sorted_tables tables) in *.
  set (hdr := head_size n k). set (hd' := x ++ (pack16 a0 ++ pack16 a1) ++ z). set (ts' := h1 ++ (bs "head", hd') :: h2).
  set (D := data_of ts'). set (file := (hdr ++ dir_of (12 + 16 * n) ts) ++ D). intros Hsz. cbn zeta.
  assert (HP : Permutation ts tables) by apply sorted_perm.
  assert (Lts : length ts = length tables) by now apply Permutation_length.
  assert (H4' : Forall (fun t : bytes * bytes => length (fst t) = 4%nat) ts) by (eapply Permutation_Forall; [symmetry; exact HP|exact H4]).
  assert (HB' : Forall (fun t : bytes * bytes => Forall is_byte (snd t)) ts).
  { eapply Permutation_Forall; [symmetry; exact HP|]. eapply Forall_impl; [|exact HF]. intros ? [? ?]; assumption. }
  assert (Lhd : length hd' = length hd) by (rewrite Ehd; unfold hd'; rewrite !app_length, Ly; reflexivity).
  assert (SS : total ts' = total ts).
  { rewrite Ets. unfold ts'. rewrite !total_app. cbn [total fold_right snd]. unfold plen. now rewrite Lhd. }
  assert (Lfile : Z.of_nat (length file) = 12 + 16 * n + total ts).
  { unfold file. rewrite !app_length, !Nat2Z.inj_add, dir_len by assumption. unfold D. rewrite data_len, SS, Lts. unfold n. reflexivity. }
  rewrite Lfile in Hsz.
  assert (RD : forall l1 name data l2, ts = l1 ++ (name, data) :: l2 -> let i := Z.of_nat (length l1) in
            tag file i = name /\ tsum file i = checksum32 data /\ toff file i = 12 + 16 * n + total l1 /\ tlen file i = Z.of_nat (length data)).
  { intros l1 name data l2 E. cbn zeta. eapply (read_entry hdr D ts l1 l2 name data); auto.
    - rewrite E in HB'. apply Forall_app in HB' as [_ HB']. inversion HB'; assumption.
    - rewrite E, total_app in Hsz. cbn [total fold_right snd] in Hsz. fold (total l2) in Hsz. pose proof (plen_ge data). pose proof (total_pos l1). pose proof (total_pos l2). lia. }
  assert (Tag : map (tag file) (indexes (length ts)) = map fst ts).
  { apply nth_ext with (d := tag file 0) (d' := []).
    - unfold indexes. now rewrite !map_length, seq_length.
    - intros i Hi. unfold indexes in *. rewrite !map_length, seq_length in Hi. rewrite map_map.
      rewrite (nth_indep _ _ ((fun j => tag file (Z.of_nat j)) 0%nat)) by (rewrite map_length, seq_length; exact Hi).
      rewrite (map_nth (fun j => tag file (Z.of_nat j))), seq_nth by lia. rewrite Nat.add_0_l.
      destruct (split_at ts i Hi) as (a & [nm dt] & b & E & L). destruct (RD a nm dt b E) as (T & _). cbn zeta in T. rewrite L in T. rewrite T.
      rewrite E, map_app, app_nth2; rewrite map_length; [|lia]. replace (i - length a)%nat with 0%nat by lia. reflexivity. }
  assert (Hn1 : 1 <= n) by (unfold n; destruct tables; [destruct HI|cbn [length]; lia]).
  assert (Pk : 2 ^ k < 4096) by lia. assert (Kk : k < 12) by (apply (Z.pow_lt_mono_r_iff 2); lia).
  split; [|split; [|split; [|split; [|split]]]].
  - unfold file, hdr, head_size, pack_header. rewrite <- !app_assoc. apply u32_pack32. lia.
  - unfold num_tables, file, hdr, head_size, pack_header. rewrite <- !app_assoc. change 4 with (Z.of_nat (length (pack32 65536)) + 0). rewrite u16_app by lia. rewrite pack16_u16. apply Z.mod_small. lia.
  - exists k. split; [exact Hk|]. split; [exact Hk2|].
    unfold file, hdr, head_size. rewrite <- app_assoc. destruct (header_fields 65536 n (2 ^ k * 16) k (n * 16 - 2 ^ k * 16) (dir_of (12 + 16 * n) ts ++ D)) as (-> & -> & ->).
    rewrite !Z.mod_small by lia. lia.
  - rewrite <- Lts, Tag. now apply Permutation_map.
  - intros i j Hij Hj.
    assert (Hj' : (Z.to_nat j < length ts)%nat) by (rewrite Lts; unfold n in Hj; lia).
    destruct (split_at ts (Z.to_nat j) Hj') as (a & [nj dj] & b & E & L).
    assert (Hi' : (Z.to_nat i < length a)%nat) by lia.
    destruct (split_at a (Z.to_nat i) Hi') as (a1' & [ni di] & b1 & E1 & L1).
    destruct (RD a nj dj b E) as (Tj & _ & Oj & _). cbn zeta in *. rewrite L, Z2Nat.id in Tj, Oj by lia.
    assert (E2 : ts = a1' ++ (ni, di) :: (b1 ++ (nj, dj) :: b)) by (rewrite E, E1, <- app_assoc; reflexivity).
    destruct (RD a1' ni di _ E2) as (Ti & _ & Oi & Li). cbn zeta in *. rewrite L1, Z2Nat.id in Ti, Oi, Li by lia.
    rewrite Tj, Ti, Oi, Li, Oj. split.
    + pose proof (sort_sorted (@fst bytes bytes) bltb bltb_strict tables) as SO. change (sort_by _ tables) with ts in SO.
      rewrite E2 in SO.
      assert (S2 : leK (@fst bytes bytes) bltb (ni, di) (nj, dj)).
      { clear -SO. induction a1' as [|t a1' IH]; cbn [app] in SO; inversion SO as [|? ? SO' F]; subst; [|now apply IH].
        rewrite Forall_forall in F. apply F. apply in_or_app. right. now left. }
      unfold leK in S2. cbn [fst] in S2. destruct (st_total _ bltb_strict ni nj) as [X|X]; [|exact X|congruence].
      intros ->. assert (NN : NoDup (map fst ts)) by (eapply Permutation_NoDup; [|exact HN]; apply Permutation_map; now symmetry).
      rewrite E2 in NN. rewrite map_app in NN. apply nodup_app_r in NN. cbn in NN. inversion NN as [|? ? X _]; subst. apply X. rewrite map_app. apply in_or_app. right. now left.
    + rewrite E1, total_app. cbn [total fold_right snd]. fold (total b1). pose proof (plen_ge di). pose proof (total_pos b1). lia.
  - intros i Hi.
    assert (Hi' : (Z.to_nat i < length ts)%nat) by (rewrite Lts; unfold n in Hi; lia).
    destruct (split_at ts (Z.to_nat i) Hi') as (a & [ni di] & b & E & L).
    destruct (RD a ni di b E) as (Ti & Si & Oi & Li). cbn zeta in *. rewrite L, Z2Nat.id in Ti, Si, Oi, Li by lia.
    exists di. rewrite Ti, Si, Oi, Li. split; [eapply Permutation_in; [exact HP|]; rewrite E; apply in_or_app; right; now left|].
    split; [reflexivity|]. split; [reflexivity|].
    split. { replace (12 + 16 * n + total a) with (total a + (3 + 4 * n) * 4) by lia. rewrite Z.mod_add by lia. apply total_mod. }
    split; [pose proof (total_pos a); lia|].
    assert (Tt : total ts = total a + plen di + total b) by (rewrite E, total_app; cbn [total fold_right snd]; fold (total b); lia).
    split; [rewrite Lfile, Tt; pose proof (plen_ge di); pose proof (total_pos b); lia|].
    unfold tdata. rewrite Oi, Li.
    assert (GET : forall a' d' b', ts' = a' ++ (ni, d') :: b' -> total a' = total a -> length d' = length di -> extract file (12 + 16 * n + total a) (Z.of_nat (length di)) = d').
    { intros a' d' b' E' T' L'. unfold file, D. rewrite E', data_of_app. cbn [data_of flat_map snd]. fold (data_of b'). unfold pad4.
      rewrite <- T', <- L'.
      replace (12 + 16 * n + total a') with (Z.of_nat (length ((hdr ++ dir_of (12 + 16 * n) ts) ++ data_of a'))).
      2:{ rewrite !app_length, !Nat2Z.inj_add, dir_len, data_len, Lts by assumption. unfold n. reflexivity. }
      rewrite <- (app_assoc d'), app_assoc. apply extract_app. }
    rewrite E in Ets. destruct (list_eq_dec Z.eq_dec ni (bs "head")) as [->|Ne].
    + split; [congruence|]. intros _.
      assert (NN : NoDup (map fst ts)) by (eapply Permutation_NoDup; [|exact HN]; apply Permutation_map; now symmetry).
      assert (Same : a = h1 /\ di = hd /\ b = h2).
      { rewrite E in NN. clear -Ets NN. revert h1 Ets. induction a as [|t a IH]; intros [|u h1] Ets; cbn [app] in Ets.
        - injection Ets as -> ->. auto.
        - injection Ets as <- ->. cbn [app map fst] in NN. inversion NN as [|? ? X _]; subst. exfalso. apply X. rewrite map_app. apply in_or_app. right. now left.
        - injection Ets as -> <-. cbn [app map fst] in NN. inversion NN as [|? ? X _]; subst. exfalso. apply X. rewrite map_app. apply in_or_app. right. now left.
        - injection Ets as -> Ets. cbn [app map fst] in NN. inversion NN; subst. destruct (IH ltac:(assumption) _ Ets) as (-> & -> & ->). auto. }
      destruct Same as (-> & -> & ->). exists (pack16 a0 ++ pack16 a1). split; [reflexivity|].
      rewrite (GET h1 hd' h2 eq_refl eq_refl Lhd). unfold hd'.
      assert (X1 : firstn 8 hd = x) by (rewrite Ehd, firstn_app, Lx, Nat.sub_diag, firstn_O, app_nil_r; apply firstn_all2; lia).
      assert (X2 : skipn 12 hd = z).
      { rewrite Ehd, app_assoc. rewrite skipn_app, app_length, Lx, Ly. rewrite skipn_all2 by (rewrite app_length; lia). reflexivity. }
      now rewrite X1, X2.
    + split; [|congruence]. intros _.
      (* another table: it is the same in ts' *)
      assert (X : exists a' b', ts' = a' ++ (ni, di) :: b' /\ total a' = total a).
      { unfold ts'. assert (Lh : plen hd' = plen hd) by (unfold plen; now rewrite Lhd). clear -Ets Ne Lh. clearbody hd'. revert h1 Ets. induction a as [|t a IH]; intros [|u h1] Ets; cbn [app] in Ets.
        - injection Ets as X _ _. congruence.
        - injection Ets as <- ->. exists [], (h1 ++ (bs "head", hd') :: h2). auto.
        - injection Ets as -> <-. exists ((bs "head", hd') :: a), b. split; [reflexivity|]. cbn [total fold_right snd]. lia.
        - injection Ets as -> Ets. destruct (IH _ Ets) as (a' & b' & E & T). exists (u :: a'), b'. cbn [app]. rewrite E. split; [reflexivity|]. cbn [total fold_right]. fold (total a') (total a). lia. }
      destruct X as (a' & b' & E' & T'). exact (GET a' di b' E' T' eq_refl).
Qed.
Print Assumptions C50_table_directory.

(** ** C39 *)
(** the file with the four bytes at [o] set to zero *)
Definition zeroed (file : bytes) (o : Z) : bytes := firstn (Z.to_nat o) file ++ [0; 0; 0; 0] ++ skipn (Z.to_nat (o + 4)) file.
(** Full statement: the words of the finished file sum to 0xB1B0AFBA. *)
Definition C39_statement : Prop := forall (tables : list (bytes * bytes)) (hd0 hd file : bytes),
  NoDup (map fst tables) -> Forall (fun t : bytes * bytes => length (fst t) = 4%nat /\ Forall is_byte (snd t)) tables ->
  clear_head (bs "head") hd0 = Ret hd -> In (bs "head", hd) tables -> Z.of_nat (length tables) < 4096 ->
  assemble tables = Ret file -> Z.of_nat (length file) < 2 ^ 32 -> checksum32 file = 2981146554.
Definition head_ex (a b : Z) : bytes := [0; 1; 0; 0; 0; 1; 0; 0; 0; 0; 0; 0; 95; 15; a; b] ++ [0; 0; 0; 0].
Definition tables_ex (a b : Z) : list (bytes * bytes) := [(bs "maxp", [0; 1; 0; 0; 0; 7]); (bs "head", head_ex a b)].
Theorem C39_refuted : ~ C39_statement.
Proof.
  intros H. specialize (H (tables_ex 120 245) (head_ex 120 245) (head_ex 120 245)).
  eassert (E : assemble (tables_ex 120 245) = Ret _) by (vm_compute; reflexivity).
  specialize (H _ ltac:(repeat constructor; cbn; intuition congruence) ltac:(repeat constructor; unfold is_byte; lia) eq_refl ltac:(right; left; reflexivity) ltac:(cbn; lia) E ltac:(vm_compute; reflexivity)).
  apply Z.eqb_eq in H. vm_compute in H. discriminate H.
Qed.
Print Assumptions C39_refuted.
Lemma calc_value c0 c1 : 0 <= c0 < 65536 -> 0 <= c1 < 65536 -> let '(a0, a1) := calc_int32 (45488, 44986) (c0, c1) in
  0 <= a0 < 65536 /\ 0 <= a1 < 65536 /\ (a0 * 65536 + a1 + (c0 * 65536 + c1)) mod 2 ^ 32 = if c1 <=? 44986 then 2981146554 else 2981277626.
Proof.
  intros H0 H1. unfold calc_int32. destruct (Z.ltb_spec 44986 c1); destruct (Z.leb_spec c1 44986); try lia.
  - cbn iota beta. destruct (Z.ltb_spec (45488 + 1) c0); rewrite land16; (split; [apply Z.mod_pos_bound; lia|]); (split; [lia|]).
    + rewrite (Z.mod_small (45488 + 1 + 65536 - c0)) by lia. symmetry. apply Z.mod_unique with 1; lia.
    + rewrite (Z.mod_small (45488 + 1 - c0)) by lia. symmetry. apply Z.mod_unique with 0; lia.
  - cbn iota beta. destruct (Z.ltb_spec 45488 c0); rewrite land16; (split; [apply Z.mod_pos_bound; lia|]); (split; [lia|]).
    + rewrite (Z.mod_small (45488 + 65536 - c0)) by lia. symmetry. apply Z.mod_unique with 1; lia.
    + rewrite (Z.mod_small (45488 - c0)) by lia. symmetry. apply Z.mod_unique with 0; lia.
Qed.
Lemma words4 a0 a1 : 0 <= a0 < 65536 -> 0 <= a1 < 65536 -> words_sum (pack16 a0 ++ pack16 a1) = a0 * 65536 + a1.
Proof.
  intros H0 H1. cbn [pack16 app words_sum]. pose proof (Z.div_mod a0 256). pose proof (Z.div_mod a1 256).
  rewrite (Z.mod_small (a0 / 256)) by (split; [apply Z.div_pos; lia|apply Z.div_lt_upper_bound; lia]).
  rewrite (Z.mod_small (a1 / 256)) by (split; [apply Z.div_pos; lia|apply Z.div_lt_upper_bound; lia]). lia.
Qed.
Lemma pack_bytes n : Forall is_byte (pack16 n) /\ Forall is_byte (pack32 n).
Proof. split; repeat constructor; try (apply Z.mod_pos_bound; lia); unfold is_byte; match goal with |- ?a mod ?b <= _ => pose proof (Z.mod_pos_bound a b); lia end. Qed.
Lemma data_bytes ts : Forall (fun t : bytes * bytes => Forall is_byte (snd t)) ts -> Forall is_byte (data_of ts).
Proof. induction 1 as [|t ts H _ IH]; [constructor|]. cbn [data_of flat_map]. apply Forall_app. split; [|exact IH]. apply Forall_app. split; [exact H|apply repeat0_bytes]. Qed.
Lemma dir_bytes ts : Forall (fun t : bytes * bytes => Forall is_byte (fst t)) ts -> forall o, Forall is_byte (dir_of o ts).
Proof.
  induction 1 as [|t ts H _ IH]; intros o; [constructor|]. cbn [dir_of]. apply Forall_app. split; [|apply IH]. unfold dir_entry. destruct (generate_checksum (snd t)) as [c0 c1].
  repeat (apply Forall_app; split); auto; apply pack_bytes.
Qed.
Lemma head_size_bytes n k : Forall is_byte (head_size n k).
Proof. unfold head_size, pack_header. repeat (apply Forall_app; split); apply pack_bytes. Qed.

(** What holds: the sum of a file is 0xB1B0AFBA when the low half of the sum
    without the adjustment is at most 0xAFBA, and 0xB1B2AFBA otherwise (a borrow
    is added instead of subtracted). *)
Theorem C39_adjustment_partial : forall (tables : list (bytes * bytes)) (hd0 hd : bytes),
  NoDup (map fst tables) -> Forall (fun t : bytes * bytes => length (fst t) = 4%nat /\ Forall is_byte (fst t) /\ Forall is_byte (snd t)) tables ->
  clear_head (bs "head") hd0 = Ret hd -> In (bs "head", hd) tables -> Z.of_nat (length tables) < 4096 ->
  exists file, assemble tables = Ret file /\
    (Z.of_nat (length file) < 2 ^ 32 ->
     exists i, 0 <= i < Z.of_nat (length tables) /\ tag file i = bs "head" /\
       checksum32 file = (if checksum32 (zeroed file (toff file i + 8)) mod 65536 <=? 44986 then 2981146554 else 2981277626)).
Proof.
  intros tables hd0 hd HN HF HC HI Hn.
  assert (H4 : Forall (fun t : bytes * bytes => length (fst t) = 4%nat) tables) by (eapply Forall_impl; [|exact HF]; intros ? [? ?]; assumption).
  assert (HZ : 12 <= Z.of_nat (length hd) /\ firstn 4 (skipn 8 hd) = [0; 0; 0; 0]).
  { unfold clear_head in HC. rewrite beqb_refl in HC. unfold splice, slice in HC. cbn [length] in HC. destruct (_ && _ && _) eqn:E1; [|discriminate]. destruct (_ && _ && _) eqn:E2 in HC; [|discriminate].
    apply (f_equal (fun o => match o with Ret v => v | _ => [] end)) in HC. subst hd.
    change (Z.to_nat (8 - 0)) with 8%nat. change (Z.to_nat 0) with 0%nat. change (skipn 0 hd0) with hd0.
    assert (L8 : length (firstn 8 hd0) = 8%nat) by (rewrite firstn_length; lia).
    split; [rewrite !app_length, L8; cbn [length]; lia|]. rewrite skipn_app, L8. rewrite skipn_all2 by lia. reflexivity. }
  destruct HZ as [HL HZ].
  destruct (assemble_layout tables hd HN HI HL H4) as (k & h1 & x & y & z & h2 & a0 & a1 & Hk & Hk2 & Ets & Ehd & Lx & Ly & Ea & Ef).
  cbn zeta in Ea, Ef. eexists. split; [exact Ef|]. clear Ef.
  assert (Ey : y = [0; 0; 0; 0]).
  { rewrite <- HZ, Ehd. rewrite skipn_app, Lx, skipn_all2 by lia. cbn [app Nat.sub skipn]. rewrite firstn_app, Ly. rewrite firstn_all2 by lia. cbn. now rewrite app_nil_r. }
  set (n := Z.of_nat (length tables)) in *. set (ts := sorted_tables tables) in *.
  set (hdr := head_size n k) in *. set (adj := pack16 a0 ++ pack16 a1) in *. set (hd' := x ++ adj ++ z). set (ts' := h1 ++ (bs "head", hd') :: h2).
  set (D := data_of ts'). set (file := (hdr ++ dir_of (12 + 16 * n) ts) ++ D) in *. intros Hsz.
  assert (HP : Permutation ts tables) by apply sorted_perm.
  assert (Lts : length ts = length tables) by now apply Permutation_length.
  assert (HF' : Forall (fun t : bytes * bytes => length (fst t) = 4%nat /\ Forall is_byte (fst t) /\ Forall is_byte (snd t)) ts) by (eapply Permutation_Forall; [symmetry; exact HP|exact HF]).
  assert (H4' : Forall (fun t : bytes * bytes => length (fst t) = 4%nat) ts) by (eapply Forall_impl; [|exact HF']; intros ? [? ?]; assumption).
  assert (HB' : Forall (fun t : bytes * bytes => Forall is_byte (snd t)) ts) by (eapply Forall_impl; [|exact HF']; intros ? (? & ? & ?); assumption).
  assert (HB2 : Forall (fun t : bytes * bytes => Forall is_byte (fst t)) ts) by (eapply Forall_impl; [|exact HF']; intros ? (? & ? & ?); assumption).
  assert (Lhd : length hd' = length hd) by (rewrite Ehd; unfold hd'; rewrite !app_length, Ly; reflexivity).
  assert (SS : total ts' = total ts).
  { rewrite Ets. unfold ts'. rewrite !total_app. cbn [total fold_right snd]. unfold plen. now rewrite Lhd. }
  assert (Ls : Z.of_nat (length (hdr ++ dir_of (12 + 16 * n) ts)) = 12 + 16 * n).
  { rewrite !app_length, !Nat2Z.inj_add, dir_len by assumption. rewrite Lts. unfold n. reflexivity. }
  assert (Lfile : Z.of_nat (length file) = 12 + 16 * n + total ts) by (unfold file; rewrite app_length, Nat2Z.inj_add, Ls; unfold D; rewrite data_len, SS; reflexivity).
  rewrite Lfile in Hsz.
  assert (RD : tag file (Z.of_nat (length h1)) = bs "head" /\ tsum file (Z.of_nat (length h1)) = checksum32 hd /\ toff file (Z.of_nat (length h1)) = 12 + 16 * n + total h1 /\ tlen file (Z.of_nat (length h1)) = Z.of_nat (length hd)).
  { eapply (read_entry hdr D ts h1 h2 (bs "head") hd); auto.
    - rewrite Ets in HB'. apply Forall_app in HB' as [_ HB']. inversion HB'; assumption.
    - rewrite Ets, total_app in Hsz. cbn [total fold_right snd] in Hsz. fold (total h2) in Hsz. pose proof (plen_ge hd). pose proof (total_pos h1). pose proof (total_pos h2). lia. }
  exists (Z.of_nat (length h1)). destruct RD as (Rt & _ & Ro & _).
  split. { unfold n. rewrite <- Lts, Ets, app_length. cbn [length]. lia. }
  split; [exact Rt|]. rewrite Ro.
  (* the file is A ++ adj ++ B *)
  set (A := (hdr ++ dir_of (12 + 16 * n) ts) ++ data_of h1 ++ x).
  set (B := z ++ repeat 0 (Z.to_nat (- Z.of_nat (length hd) mod 4)) ++ data_of h2).
  assert (EF : file = A ++ adj ++ B).
  { unfold file, D, ts', A, B. rewrite data_of_app. cbn [data_of flat_map snd]. fold (data_of h1) (data_of h2). unfold pad4. rewrite Lhd. unfold hd'. now rewrite <- !app_assoc. }
  assert (EZ : (hdr ++ dir_of (12 + 16 * n) ts) ++ data_of ts = A ++ [0; 0; 0; 0] ++ B).
  { unfold A, B. rewrite Ets at 2. rewrite data_of_app. cbn [data_of flat_map snd]. fold (data_of h1) (data_of h2). unfold pad4. rewrite Ehd at 1. rewrite Ey, <- !app_assoc. reflexivity. }
  assert (LA : Z.of_nat (length A) = 12 + 16 * n + total h1 + 8) by (unfold A; rewrite app_length, Nat2Z.inj_add, Ls, app_length, Nat2Z.inj_add, data_len, Lx; lia).
  assert (LA4 : Z.of_nat (length A) mod 4 = 0).
  { rewrite LA. replace (12 + 16 * n + total h1 + 8) with (total h1 + (5 + 4 * n) * 4) by lia. rewrite Z.mod_add by lia. apply total_mod. }
  assert (EZ2 : zeroed file (12 + 16 * n + total h1 + 8) = A ++ [0; 0; 0; 0] ++ B).
  { unfold zeroed. rewrite EF, <- LA, Nat2Z.id. rewrite firstn_app, firstn_all, Nat.sub_diag, firstn_O, app_nil_r. f_equal. f_equal.
    replace (Z.to_nat (Z.of_nat (length A) + 4)) with (length (A ++ adj)) by (rewrite app_length; unfold adj; change (length (pack16 a0 ++ pack16 a1)) with 4%nat; lia).
    rewrite app_assoc, skipn_app, skipn_all, Nat.sub_diag. reflexivity. }
  rewrite EZ2. rewrite EZ in Ea.
  assert (BB : Forall is_byte (A ++ [0; 0; 0; 0] ++ B)).
  { rewrite <- EZ. apply Forall_app. split; [|now apply data_bytes]. apply Forall_app. split; [apply head_size_bytes|now apply dir_bytes]. }
  pose proof (generate_checksum_spec _ BB) as (C0 & C1 & C2). destruct (generate_checksum (A ++ [0; 0; 0; 0] ++ B)) as [c0 c1]. cbn zeta in C0, C1, C2. cbn [fst snd] in C0, C1, C2.
  pose proof (calc_value c0 c1 C0 C1) as V. rewrite <- Ea in V. destruct V as (V0 & V1 & V2).
  rewrite <- C2. rewrite (Z.add_comm (c0 * 65536)), Z.mod_add, (Z.mod_small c1) by lia. rewrite <- V2.
  unfold checksum32. rewrite EF. rewrite words_sum_app by exact LA4. rewrite words_sum_app by reflexivity. unfold adj. rewrite words4 by assumption.
  unfold checksum32 in C2. rewrite words_sum_app in C2 by exact LA4. rewrite words_sum_app in C2 by reflexivity. cbn [words_sum] in C2.
  rewrite C2, Z.add_mod_idemp_r by lia. f_equal. lia.
Qed.
Print Assumptions C39_adjustment_partial.
Example C39_ex : exists file, assemble (tables_ex 60 245) = Ret file /\ checksum32 file = 2981146554 /\ tdata file 0 <> head_ex 60 245 /\ tdata file 1 = [0; 1; 0; 0; 0; 7]
  /\ tag file 0 = bs "head" /\ toff file 0 = 44 /\ toff file 1 = 64.
Proof. eexists. split; [vm_compute; reflexivity|]. vm_compute. repeat split; discriminate. Qed.
Example C39_hyp : clear_head (bs "head") (head_ex 60 245) = Ret (head_ex 60 245) /\ NoDup (map fst (tables_ex 60 245)).
Proof. split; [reflexivity|]. repeat constructor; cbn; intuition congruence. Qed.
(** the checksum of each table in the directory is the sum of its words *)
Theorem C39_table_checksums : forall (tables : list (bytes * bytes)) (hd : bytes),
  NoDup (map fst tables) -> Forall (fun t : bytes * bytes => length (fst t) = 4%nat /\ Forall is_byte (snd t)) tables ->
  In (bs "head", hd) tables -> 12 <= Z.of_nat (length hd) -> Z.of_nat (length tables) < 4096 ->
  exists file, assemble tables = Ret file /\
    (Z.of_nat (length file) < 2 ^ 32 -> forall name data, In (name, data) tables ->
       exists i, 0 <= i < num_tables file /\ tag file i = name /\ tsum file i = checksum32 data).
Proof.
  intros tables hd HN HF HI HL Hn. destruct (C50_table_directory tables hd HN HF HI HL Hn) as (file & E & H).
  exists file. split; [exact E|]. intros Hs name data Hd. destruct (H Hs) as (_ & En & _ & P & _ & R). cbn zeta in *.
  assert (X : In name (map (tag file) (indexes (length tables)))) by (eapply Permutation_in; [symmetry; exact P|]; apply in_map_iff; now exists (name, data)).
  apply in_map_iff in X as (i & Ti & Hi). unfold indexes in Hi. apply in_map_iff in Hi as (j & <- & Hj). apply in_seq in Hj.
  exists (Z.of_nat j). rewrite En. split; [lia|]. split; [exact Ti|]. destruct (R (Z.of_nat j)) as (d & Hd' & _ & S & _); [lia|]. rewrite S. f_equal.
  rewrite Ti in Hd'. clear -HN Hd Hd'. induction tables as [|[a b] t IH]; [destruct Hd|]. cbn in HN. inversion HN as [|? ? X HN']; subst.
  destruct Hd as [Hd|Hd], Hd' as [Hd'|Hd']; [congruence| | |now apply IH].
  - injection Hd as -> ->. exfalso. apply X. apply in_map_iff. now exists (name, d).
  - injection Hd' as -> ->. exfalso. apply X. apply in_map_iff. now exists (name, data).
Qed.
Print Assumptions C39_table_checksums.
