(** compare.go: CompareBytes (C45). *)
From Verif Require Import Base.
Open Scope Z_scope.

(** compare.go:78-85 [checkBytes]: bytes.Equal; the printed difference is not modelled *)
Definition check_bytes (a b : bytes) : bool := beqb a b.
(** Go's sl[lo:hi] for 0 <= lo <= hi <= len *)
Definition slice (lo hi : Z) (s : bytes) : bytes := firstn (Z.to_nat (hi - lo)) (skipn (Z.to_nat lo) s).

(** compare.go:98-107, the loop of [CompareBytes]; [fuel] bounds the number of
    rounds (posStart grows by at least one in each) *)
Fixpoint compare_loop (fuel : nat) (pos len : Z) (a b : bytes) (diffs : bool) : bool :=
  match fuel with
  | O => diffs
  | S k =>
      if pos <? len - 1 then
        let pend := pos + 16 in
        let pend := if len <? pend then len else pend in
        let diffs := if negb (check_bytes (slice pos pend a) (slice pos pend b)) then true else diffs in
        compare_loop k pend len a b diffs
      else diffs
  end.
(** compare.go:89-113 [CompareBytes]: true when the result is nil *)
Definition compare_bytes (a b : bytes) : bool :=
  let len1 := Z.of_nat (length a) in
  let len2 := Z.of_nat (length b) in
  let len := if len2 <? len1 then len2 else len1 in
  negb (compare_loop (S (Z.to_nat len)) 0 len a b false).

(** the bytes actually compared: all of the shorter one, except its last byte
    when it stands alone in a row of 16 *)
Definition compared (len : nat) : nat := if Nat.eqb (len mod 16) 1 then (len - 1)%nat else len.

Lemma firstn_split {A} n m (l : list A) : firstn (n + m) l = firstn n l ++ firstn m (skipn n l).
Proof. revert l. induction n as [|n IH]; intros l; [reflexivity|]. destruct l; cbn; [now rewrite firstn_nil|]. now rewrite IH. Qed.
Lemma skipn_add {A} n m (l : list A) : skipn n (skipn m l) = skipn (m + n) l.
Proof. revert l. induction m as [|m IH]; intros l; [reflexivity|]. destruct l; [now rewrite !skipn_nil|]. cbn. apply IH. Qed.

Lemma loop_spec k : forall p l a b diffs,
  (p <= l)%nat -> (l < k + p)%nat -> (l <= length a)%nat -> (l <= length b)%nat -> (p mod 16 = 0 \/ p = l)%nat ->
  compare_loop k (Z.of_nat p) (Z.of_nat l) a b diffs = false <->
  diffs = false /\ firstn (compared l - p) (skipn p a) = firstn (compared l - p) (skipn p b).
Proof.
  induction k as [|k IH]; intros p l a b diffs Hp Hk Ha Hb Hm; [lia|]. cbn [compare_loop].
  assert (Hc : (compared l <= l)%nat) by (unfold compared; destruct (Nat.eqb (l mod 16) 1); lia).
  destruct (Z.ltb_spec (Z.of_nat p) (Z.of_nat l - 1)) as [H|H].
  - cbv zeta. set (q := if (l <? p + 16)%nat then l else (p + 16)%nat).
    assert (Eq : (if Z.of_nat l <? Z.of_nat p + 16 then Z.of_nat l else Z.of_nat p + 16) = Z.of_nat q).
    { unfold q. destruct (Nat.ltb_spec l (p + 16)), (Z.ltb_spec (Z.of_nat l) (Z.of_nat p + 16)); lia. }
    rewrite Eq. assert (Hq : (p < q <= l)%nat) by (unfold q; destruct (Nat.ltb_spec l (p + 16)); lia).
    assert (Hm' : (q mod 16 = 0 \/ q = l)%nat).
    { unfold q. destruct (Nat.ltb_spec l (p + 16)); [now right|]. destruct Hm as [Hm| ->]; [|lia]. left.
      replace (p + 16)%nat with (p + 1 * 16)%nat by lia. now rewrite Nat.mod_add. }
    assert (Hcq : (q <= compared l)%nat).
    { unfold compared. destruct (Nat.eqb_spec (l mod 16) 1) as [E|E]; [|lia].
      destruct (Nat.ltb_spec l (p + 16)) as [F|F]; [|unfold q; replace (l <? p + 16)%nat with false by (symmetry; now apply Nat.ltb_ge)].
      - exfalso. destruct Hm as [Hm| ->]; [|lia]. assert (p = 16 * (p / 16))%nat by (apply Nat.div_exact; lia).
        assert (l = 16 * (l / 16) + 1)%nat by (rewrite <- E at 3; apply Nat.div_mod; lia). lia.
      - destruct Hm as [Hm| ->]; [|lia]. assert (p = 16 * (p / 16))%nat by (apply Nat.div_exact; lia).
        assert (l = 16 * (l / 16) + 1)%nat by (rewrite <- E at 3; apply Nat.div_mod; lia). lia. }
    rewrite IH by lia.
    assert (Es : forall s, slice (Z.of_nat p) (Z.of_nat q) s = firstn (q - p) (skipn p s)).
    { intros s. unfold slice. rewrite Nat2Z.id. f_equal. lia. }
    rewrite !Es. unfold check_bytes.
    replace (compared l - p)%nat with ((q - p) + (compared l - q))%nat by lia. rewrite !firstn_split, !skipn_add.
    replace (p + (q - p))%nat with q by lia.
    destruct (beqb (firstn (q - p) (skipn p a)) (firstn (q - p) (skipn p b))) eqn:E.
    + apply beqb_eq in E. cbn [negb]. rewrite E. split; intros [X Y]; (split; [exact X|]); [now rewrite Y|]. now apply app_inv_head in Y.
    + cbn [negb]. split; [easy|]. intros [X Y].
      exfalso. assert (beqb (firstn (q - p) (skipn p a)) (firstn (q - p) (skipn p b)) = true); [|congruence]. apply beqb_eq.
      assert (L : length (firstn (q - p) (skipn p a)) = length (firstn (q - p) (skipn p b))) by (rewrite !firstn_length, !skipn_length; lia).
      apply (f_equal (firstn (length (firstn (q - p) (skipn p a))))) in Y.
      rewrite firstn_app, Nat.sub_diag, firstn_O, app_nil_r, firstn_all in Y.
      rewrite L, firstn_app, Nat.sub_diag, firstn_O, app_nil_r, firstn_all in Y. exact Y.
  - assert (compared l - p = 0)%nat as ->.
    { unfold compared. destruct (Nat.eqb_spec (l mod 16) 1) as [E|E]; [lia|]. destruct Hm as [Hm| ->]; [|lia].
      assert (l = p \/ l = p + 1)%nat as [->| ->] by lia; [lia|]. exfalso. apply E. rewrite <- Nat.add_mod_idemp_l, Hm by lia. reflexivity. }
    cbn. tauto.
Qed.

(** C45, the full statement *)
Definition C45_statement : Prop := forall a b, compare_bytes a b = true <-> a = b.

(** what holds: nil exactly when the compared bytes agree *)
Theorem C45_compare_partial :
  forall a b, let n := compared (Nat.min (length a) (length b)) in
    compare_bytes a b = true <-> firstn n a = firstn n b.
Proof.
  intros a b n. unfold compare_bytes.
  assert (El : (if Z.of_nat (length b) <? Z.of_nat (length a) then Z.of_nat (length b) else Z.of_nat (length a)) = Z.of_nat (Nat.min (length a) (length b))).
  { destruct (Z.ltb_spec (Z.of_nat (length b)) (Z.of_nat (length a))); lia. }
  cbv zeta. rewrite El, Nat2Z.id, negb_true_iff. change 0 with (Z.of_nat 0).
  rewrite loop_spec by (try lia; now left). rewrite Nat.sub_0_r. cbn [skipn]. tauto.
Qed.
(** equal lengths, and not one byte over a multiple of 16: a difference is always reported *)
Theorem C45_same_length_partial :
  forall a b, length a = length b -> (length a mod 16 <> 1)%nat -> (compare_bytes a b = true <-> a = b).
Proof.
  intros a b L M. pose proof (C45_compare_partial a b) as H. cbv zeta in H. rewrite H, <- L, Nat.min_id. unfold compared.
  destruct (Nat.eqb_spec (length a mod 16) 1); [lia|]. rewrite firstn_all, L, firstn_all. tauto.
Qed.
(** no false alarm *)
Theorem C45_equal_is_nil_partial : forall a, compare_bytes a a = true.
Proof. intros a. now apply C45_compare_partial. Qed.

(** a difference in the 17th byte, or in the length, is not reported *)
Theorem C45_refuted : ~ C45_statement /\
  (exists a b, length a = length b /\ a <> b /\ compare_bytes a b = true) /\
  (exists a b, length a <> length b /\ compare_bytes a b = true).
Proof.
  assert (H : compare_bytes (repeat 0 16 ++ [1]) (repeat 0 16 ++ [2]) = true) by (vm_compute; reflexivity).
  split; [|split].
  - intros S. apply S in H. discriminate.
  - exists (repeat 0 16 ++ [1]), (repeat 0 16 ++ [2]). split; [reflexivity|]. split; [discriminate|exact H].
  - exists [1; 2; 3], [1; 2; 3; 4; 5]. split; [discriminate|vm_compute; reflexivity].
Qed.
Print Assumptions C45_compare_partial.
Print Assumptions C45_same_length_partial.
Print Assumptions C45_equal_is_nil_partial.
Print Assumptions C45_refuted.
Example C45_ex : compare_bytes [1; 2; 3; 4; 5] [1; 2; 3; 4; 6] = false /\ (length [1; 2; 3; 4; 5] mod 16 <> 1)%nat.
Proof. split; [vm_compute; reflexivity|discriminate]. Qed.

(** ** Readers and files

    bytes.Buffer of the Go library, as far as compare.go:115-129 uses it: the
    method writes through its receiver before it reads anything, so that a nil
    receiver panics whatever the reader holds.  [rd] is what the reader would
    deliver: all of its bytes or an error *)
Inductive read (E : Type) : Type := Bytes (b : bytes) | Err (e : E).
Arguments Bytes {E} b. Arguments Err {E} e.
Inductive result (E : Type) : Type := Panics | Nil | Different | Failed (e : E).
Arguments Panics {E}. Arguments Nil {E}. Arguments Different {E}. Arguments Failed {E} e.

(** the receiver of ReadFrom: None is a nil pointer *)
Definition read_from {E} (recv : option bytes) (rd : read E) : option (bytes * option E) :=
  match recv with
  | None => None
  | Some old => match rd with Bytes b => Some (old ++ b, None) | Err e => Some (old, Some e) end
  end.
(** the error value of [CompareBytes] *)
Definition compare_err {E} (a b : bytes) : result E := if compare_bytes a b then Nil else Different.
(** compare.go:115-129 [ComparePDFs]: var b1, b2 *bytes.Buffer, never assigned *)
Definition compare_pdfs {E} (rdr1 rdr2 : read E) : result E :=
  let b1 : option bytes := None in
  let b2 : option bytes := None in
  match read_from b1 rdr1 with
  | None => Panics
  | Some (_, Some e) => Failed e
  | Some (s1, None) =>
      match read_from b2 rdr2 with
      | None => Panics
      | Some (_, Some e) => Failed e
      | Some (s2, None) => compare_err s1 s2
      end
  end.
(** compare.go:131-147 [ComparePDFFiles]; [read_file] is ioutil.ReadFile *)
Definition compare_files {E} (read_file : bytes -> read E) (f1 f2 : bytes) : result E :=
  match read_file f1 with
  | Err e => Failed e
  | Bytes s1 =>
      match read_file f2 with
      | Err _ => Nil
      | Bytes s2 => compare_err s1 s2
      end
  end.

(** why a file cannot be read *)
Inductive fail := Missing | Denied | IsDirectory | BrokenDisk.

(** C45 for readers: nil exactly when both are read and hold the same bytes *)
Definition C45_readers_statement : Prop :=
  forall a b : bytes, compare_pdfs (E := fail) (Bytes a) (Bytes b) = Nil <-> a = b.
(** it is never nil, whatever the two readers hold: the call panics *)
Theorem C45_readers_refuted :
  ~ C45_readers_statement /\ forall (r1 r2 : read fail), compare_pdfs r1 r2 = Panics.
Proof.
  split; [|reflexivity]. intros S. destruct (S [37; 80] [37; 80]) as [_ H]. now discriminate (H eq_refl).
Qed.

(** C45 for files, as the comment of the function has it: nil exactly when the
    first file is read and the second either is missing or holds the same bytes *)
Definition C45_files_statement : Prop :=
  forall (read_file : bytes -> read fail) f1 f2,
    compare_files read_file f1 f2 = Nil <->
    exists s1, read_file f1 = Bytes s1 /\ (read_file f2 = Err Missing \/ read_file f2 = Bytes s1).
(** what holds for every file system: a first file that cannot be read is an
    error, the very error of the reading; a missing second file is none; the same
    bytes are no error; and two files of the same length (not one over a multiple
    of 16) that differ are an error *)
Theorem C45_files_partial :
  forall (read_file : bytes -> read fail) f1 f2,
    (forall e, compare_files read_file f1 f2 = Failed e <-> read_file f1 = Err e) /\
    compare_files read_file f1 f2 <> Panics /\
    (forall s1, read_file f1 = Bytes s1 -> (read_file f2 = Err Missing \/ read_file f2 = Bytes s1) ->
       compare_files read_file f1 f2 = Nil) /\
    (forall s1 s2, read_file f1 = Bytes s1 -> read_file f2 = Bytes s2 -> s1 <> s2 ->
       length s1 = length s2 -> (length s1 mod 16 <> 1)%nat ->
       compare_files read_file f1 f2 = Different).
Proof.
  intros rf f1 f2. unfold compare_files, compare_err. repeat split.
  - destruct (rf f1) as [s1|e']; [|intros [= ->]; reflexivity].
    destruct (rf f2) as [s2|e']; [|discriminate]. destruct (compare_bytes s1 s2); discriminate.
  - now intros ->.
  - destruct (rf f1) as [s1|e']; [|discriminate].
    destruct (rf f2) as [s2|e']; [|discriminate]. destruct (compare_bytes s1 s2); discriminate.
  - intros s1 -> [->| ->]; [reflexivity|]. now rewrite C45_equal_is_nil_partial.
  - intros s1 s2 -> -> N L M. destruct (compare_bytes s1 s2) eqn:E; [|reflexivity].
    apply C45_same_length_partial in E; [contradiction|exact L|exact M].
Qed.
(** a second file that is there but cannot be read passes as equal *)
Theorem C45_files_refuted : ~ C45_files_statement /\
  forall (read_file : bytes -> read fail) f1 f2 s1 e,
    read_file f1 = Bytes s1 -> read_file f2 = Err e -> compare_files read_file f1 f2 = Nil.
Proof.
  assert (H : forall (read_file : bytes -> read fail) f1 f2 s1 e,
    read_file f1 = Bytes s1 -> read_file f2 = Err e -> compare_files read_file f1 f2 = Nil).
  { intros rf f1 f2 s1 e A B. unfold compare_files. now rewrite A, B. }
  split; [|exact H]. intros S.
  set (rf := fun n : bytes => match n with [49] => Bytes [37; 80; 68; 70] | _ => Err Denied end : read fail).
  destruct (S rf [49] [50]) as [X _]. destruct X as [s1 [A [B|B]]]; [reflexivity|discriminate B|discriminate B].
Qed.
Print Assumptions C45_readers_refuted.
Print Assumptions C45_files_partial.
Print Assumptions C45_files_refuted.
Example C45_files_ex :
  let rf := fun n : bytes => match n with [49] => Bytes [1; 2; 3] | [50] => Bytes [1; 7; 3] | _ => Err Missing end : read fail in
  compare_files rf [49] [50] = Different /\ compare_files rf [49] [51] = Nil /\ compare_files rf [51] [49] = Failed Missing.
Proof. repeat split; vm_compute; reflexivity. Qed.
