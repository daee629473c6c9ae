(** Common vocabulary of the model: bytes, byte strings, Go panics.

    A Go [byte] is a [Z] between 0 and 255, a Go [string] or [[]byte] is a
    [list Z].  A Go [int] is an unbounded [Z]: no theorem here is about 64-bit
    overflow, except where a [mod] is written explicitly. *)
From Coq Require Export List ZArith Lia Bool.
From Coq Require Export ZifyBool ZifyNat.
From Coq Require Import String Ascii.
Export ListNotations.
Open Scope Z_scope.

Ltac Zify.zify_post_hook ::= Z.div_mod_to_equations.

Definition bytes := list Z.

Definition is_byte (b : Z) : Prop := 0 <= b <= 255.
Definition is_byteb (b : Z) : bool := (0 <=? b) && (b <=? 255).

(** ASCII literals of the Go source as byte strings. *)
Definition bs (s : string) : bytes :=
  List.map (fun a => Z.of_N (N_of_ascii a)) (list_ascii_of_string s).

(** Outcome of a Go computation that may panic (index out of range, nil
    dereference) or that the model ran out of fuel for. *)
Inductive outcome (A : Type) : Type :=
| Ret (a : A)
| Panic
| OutOfFuel.
Arguments Ret {A} a.
Arguments Panic {A}.
Arguments OutOfFuel {A}.

Definition obind {A B} (o : outcome A) (k : A -> outcome B) : outcome B :=
  match o with Ret a => k a | Panic => Panic | OutOfFuel => OutOfFuel end.

(** equality test on byte strings (Go [==] on strings) *)
Fixpoint beqb (a b : bytes) : bool :=
  match a, b with
  | [], [] => true
  | x :: a', y :: b' => (x =? y) && beqb a' b'
  | _, _ => false
  end.

Lemma beqb_eq a b : beqb a b = true <-> a = b.
Proof.
  revert b; induction a as [|x a IH]; intros [|y b]; simpl; split; intros H; try easy.
  - apply andb_prop in H as [H1 H2]. apply Z.eqb_eq in H1. apply IH in H2. congruence.
  - injection H as -> ->. rewrite Z.eqb_refl. simpl. now apply IH.
Qed.

Lemma beqb_refl a : beqb a a = true.
Proof. now apply beqb_eq. Qed.

Lemma beqb_neq a b : beqb a b = false <-> a <> b.
Proof.
  split; intros H.
  - intros E. apply beqb_eq in E. congruence.
  - destruct (beqb a b) eqn:E; [|reflexivity]. apply beqb_eq in E. contradiction.
Qed.

(** [prefixb p s]: s starts with p (Go [strings.HasPrefix]). *)
Fixpoint prefixb (p s : bytes) : bool :=
  match p, s with
  | [], _ => true
  | _ :: _, [] => false
  | x :: p', y :: s' => (x =? y) && prefixb p' s'
  end.

Lemma prefixb_spec p s : prefixb p s = true <-> exists t, s = p ++ t.
Proof.
  revert s; induction p as [|x p IH]; intros s; simpl.
  - split; intros; [now exists s | reflexivity].
  - destruct s as [|y s]; split; intros H; try easy.
    + destruct H as [t H]. discriminate.
    + apply andb_prop in H as [H1 H2]. apply Z.eqb_eq in H1. apply IH in H2 as [t Ht].
      exists t. congruence.
    + destruct H as [t H]. injection H as -> H. rewrite Z.eqb_refl. simpl.
      apply IH. now exists t.
Qed.

(** [strings.Contains s sub] *)
Fixpoint containsb (sub s : bytes) : bool :=
  prefixb sub s || match s with [] => false | _ :: t => containsb sub t end.

Lemma containsb_spec sub s :
  containsb sub s = true <-> exists a b, s = a ++ sub ++ b.
Proof.
  induction s as [|c t IH]; simpl.
  - rewrite orb_false_r, prefixb_spec. split.
    + intros [b H]. now exists [], b.
    + intros (a & b & H). symmetry in H. apply app_eq_nil in H as [-> H].
      apply app_eq_nil in H as [-> ->]. now exists [].
  - rewrite orb_true_iff, prefixb_spec, IH. split.
    + intros [[b H]|(a & b & H)].
      * exists [], b. exact H.
      * exists (c :: a), b. now rewrite H.
    + intros (a & b & H). destruct a as [|x a].
      * left. now exists b.
      * right. injection H as <- H. now exists a, b.
Qed.

(** Go [strings.Replace(s, old, new, -1)] for a non-empty [old]: leftmost
    non-overlapping occurrences are replaced.  [skip] counts the bytes of an
    occurrence already replaced that are still to be passed over. *)
Fixpoint replace_from (old new s : bytes) (skip : nat) : bytes :=
  match s with
  | [] => []
  | c :: t =>
      match skip with
      | S k => replace_from old new t k
      | O => if prefixb old s
             then new ++ replace_from old new t (List.length old - 1)
             else c :: replace_from old new t 0
      end
  end.
Definition replace_all (old new s : bytes) : bytes := replace_from old new s 0.

Lemma replace_all_byte c new s :
  replace_all [c] new s = List.flat_map (fun x => if c =? x then new else [x]) s.
Proof.
  unfold replace_all. induction s as [|x s IH]; [reflexivity|].
  cbn [replace_from prefixb List.length flat_map].
  rewrite andb_true_r.
  replace (1 - 1)%nat with 0%nat by lia. rewrite IH.
  destruct (c =? x); reflexivity.
Qed.

(** Replacing in a text is decomposed at the first occurrence. *)
Lemma replace_from_app_skip old new a s :
  replace_from old new (a ++ s) (List.length a) = replace_from old new s 0.
Proof. induction a as [|x a IH]; [reflexivity|]. exact IH. Qed.

Lemma replace_all_occ old new s :
  old <> [] ->
  replace_all old new (old ++ s) = new ++ replace_all old new s.
Proof.
  intros Hne. destruct old as [|c old]; [easy|]. unfold replace_all.
  cbn [app]. cbn [replace_from].
  replace (prefixb (c :: old) (c :: old ++ s)) with true.
  2:{ symmetry. apply prefixb_spec. now exists s. }
  f_equal. cbn [List.length]. replace (S (List.length old) - 1)%nat with (List.length old) by lia.
  apply replace_from_app_skip.
Qed.

Lemma replace_all_step old new c s :
  prefixb old (c :: s) = false ->
  replace_all old new (c :: s) = c :: replace_all old new s.
Proof. intros H. unfold replace_all. cbn [replace_from]. now rewrite H. Qed.

Lemma replace_all_nil old new : replace_all old new [] = [].
Proof. reflexivity. Qed.

Lemma replace_all_none old new s :
  containsb old s = false -> replace_all old new s = s.
Proof.
  induction s as [|c s IH]; intros H; [reflexivity|].
  cbn [containsb] in H. apply orb_false_iff in H as [H1 H2].
  rewrite replace_all_step by exact H1. now rewrite IH.
Qed.

(** Decimal printing of a non-negative integer (Go's %d / strconv.Itoa). *)
Fixpoint dec_fuel (fuel : nat) (n : Z) (acc : bytes) : bytes :=
  match fuel with
  | O => acc
  | S f => let acc' := (48 + n mod 10) :: acc in
           if n <? 10 then acc' else dec_fuel f (n / 10) acc'
  end.
Definition dec_nat (n : Z) : bytes := dec_fuel (S (Z.to_nat (Z.log2 n))) n [].
(** %d of any integer *)
Definition dec (n : Z) : bytes := if n <? 0 then 45 :: dec_nat (- n) else dec_nat n.

(** Reading a decimal number back: longest run of digits, at least one. *)
Definition is_digit (c : Z) : bool := (48 <=? c) && (c <=? 57).
Fixpoint read_digits (acc : Z) (s : bytes) : Z * bytes :=
  match s with
  | c :: t => if is_digit c then read_digits (acc * 10 + (c - 48)) t else (acc, s)
  | [] => (acc, [])
  end.
Definition read_dec (s : bytes) : option (Z * bytes) :=
  match s with
  | c :: _ => if is_digit c then Some (read_digits 0 s) else None
  | [] => None
  end.

Definition starts_nondigit (s : bytes) : Prop :=
  match s with [] => True | c :: _ => is_digit c = false end.

Lemma read_digits_app acc ds s :
  Forall (fun c => is_digit c = true) ds -> starts_nondigit s ->
  read_digits acc (ds ++ s) = (fold_left (fun a c => a * 10 + (c - 48)) ds acc, s).
Proof.
  intros Hd Hs. revert acc. induction Hd as [|c ds Hc Hd IH]; intros acc; cbn [app read_digits fold_left].
  - destruct s as [|c s]; [reflexivity|]. simpl in Hs. cbn [read_digits]. now rewrite Hs.
  - rewrite Hc. apply IH.
Qed.

Lemma dec_fuel_acc fuel n acc : dec_fuel fuel n acc = dec_fuel fuel n [] ++ acc.
Proof.
  revert n acc. induction fuel as [|f IH]; intros n acc; [reflexivity|].
  cbn [dec_fuel]. destruct (n <? 10); [reflexivity|].
  rewrite IH. rewrite (IH _ [48 + n mod 10]). now rewrite <- app_assoc.
Qed.

Lemma dec_fuel_digits fuel n : Forall (fun c => is_digit c = true) (dec_fuel fuel n []).
Proof.
  revert n. induction fuel as [|f IH]; intros n; [constructor|].
  cbn [dec_fuel].
  assert (Hd : is_digit (48 + n mod 10) = true) by (unfold is_digit; lia).
  destruct (n <? 10); [now constructor|].
  rewrite dec_fuel_acc. apply Forall_app. split; [apply IH|now constructor].
Qed.

Lemma dec_fuel_value fuel n acc :
  0 <= n -> n < 2 ^ Z.of_nat fuel ->
  fold_left (fun a c => a * 10 + (c - 48)) (dec_fuel fuel n []) acc
  = acc * 10 ^ Z.of_nat (List.length (dec_fuel fuel n [])) + n.
Proof.
  revert n acc. induction fuel as [|f IH]; intros n acc H0 H1.
  - simpl in *. assert (n = 0) by lia. lia.
  - cbn [dec_fuel]. destruct (n <? 10) eqn:E.
    + cbn [fold_left List.length]. replace (Z.of_nat 1) with 1 by lia.
      rewrite Z.pow_1_r. apply Z.ltb_lt in E. rewrite Z.mod_small by lia. lia.
    + rewrite dec_fuel_acc, fold_left_app, app_length. cbn [fold_left List.length].
      rewrite IH.
      * rewrite Nat2Z.inj_add. replace (Z.of_nat 1) with 1 by lia.
        rewrite Z.pow_add_r by lia. rewrite Z.pow_1_r.
        set (L := 10 ^ _). pose proof (Z_div_mod_eq_full n 10). nia.
      * apply Z.div_pos; lia.
      * rewrite Nat2Z.inj_succ, Z.pow_succ_r in H1 by lia.
        apply Z.ltb_ge in E. assert (n / 10 <= n / 2) by (apply Z.div_le_compat_l; lia).
        assert (n / 2 < 2 ^ Z.of_nat f) by (apply Z.div_lt_upper_bound; lia). lia.
Qed.

Lemma dec_nat_bound n : 0 <= n -> n < 2 ^ Z.of_nat (S (Z.to_nat (Z.log2 n))).
Proof.
  intros H. rewrite Nat2Z.inj_succ, Z2Nat.id by apply Z.log2_nonneg.
  destruct (Z.eq_dec n 0) as [->|Hn]; [reflexivity|].
  apply Z.log2_spec. lia.
Qed.

Lemma dec_nat_cons n : exists c t, dec_nat n = c :: t /\ is_digit c = true.
Proof.
  unfold dec_nat. pose proof (dec_fuel_digits (S (Z.to_nat (Z.log2 n))) n) as H.
  destruct (dec_fuel _ n []) as [|c t] eqn:E.
  - cbn [dec_fuel] in E. destruct (n <? 10); [discriminate|].
    rewrite dec_fuel_acc in E. destruct (dec_fuel _ _ []); discriminate.
  - inversion H; subst. now exists c, t.
Qed.

(** A printed number is read back, and the reader stops after it. *)
Lemma read_dec_nat n s :
  0 <= n -> starts_nondigit s -> read_dec (dec_nat n ++ s) = Some (n, s).
Proof.
  intros Hn Hs. destruct (dec_nat_cons n) as (c & t & E & Hc).
  unfold read_dec. rewrite E. cbn [app]. rewrite Hc.
  change (c :: t ++ s) with ((c :: t) ++ s). rewrite <- E. unfold dec_nat.
  rewrite read_digits_app by (auto using dec_fuel_digits).
  rewrite dec_fuel_value by (auto using dec_nat_bound). now rewrite Z.mul_0_l.
Qed.

Lemma read_dec_dec n s :
  0 <= n -> starts_nondigit s -> read_dec (dec n ++ s) = Some (n, s).
Proof.
  intros Hn Hs. unfold dec. replace (n <? 0) with false by lia. now apply read_dec_nat.
Qed.

Example dec_ex : dec 1024 = bs "1024"%string. Proof. reflexivity. Qed.
Example dec_ex0 : dec 0 = bs "0"%string. Proof. reflexivity. Qed.
Example dec_exn : dec (-37) = bs "-37"%string. Proof. reflexivity. Qed.

(** zero-padded decimal of given width (Go's %0wd for n >= 0) *)
Definition dec_pad (w : nat) (n : Z) : bytes :=
  let d := dec n in List.repeat 48 (w - List.length d) ++ d.

(** Numeric equality helpers on lists *)
Fixpoint lookup {A} (n : nat) (l : list A) : option A :=
  match l, n with
  | x :: _, O => Some x
  | _ :: t, S k => lookup k t
  | [], _ => None
  end.

Lemma lookup_nth_error {A} n (l : list A) : lookup n l = nth_error l n.
Proof. revert n; induction l as [|x l IH]; intros [|n]; simpl; auto. Qed.

(** s[i] in Go, with i an int: [None] is the index-out-of-range panic. *)
Definition at_ {A} (l : list A) (i : Z) : option A :=
  if i <? 0 then None else nth_error l (Z.to_nat i).

(** s[a:b] in Go, [None] when out of range *)
Definition slice {A} (l : list A) (a b : Z) : option (list A) :=
  if (0 <=? a) && (a <=? b) && (b <=? Z.of_nat (List.length l))
  then Some (firstn (Z.to_nat (b - a)) (skipn (Z.to_nat a) l)) else None.
