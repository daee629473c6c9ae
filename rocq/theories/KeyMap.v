(** util.go: the ordered map used for the widths of UTF-8 fonts (C52). *)
From Verif Require Import Base.
From Coq Require Import FinFun String.
Open Scope Z_scope.
Notation length := List.length.

(** the keys used: Go ints and strings held in an interface{}; == on them *)
Inductive key := KInt (n : Z) | KStr (s : bytes).
Definition keqb (a b : key) : bool :=
  match a, b with KInt n, KInt m => n =? m | KStr s, KStr t => beqb s t | _, _ => false end.

(** util.go:326-329: keySet and valueSet *)
Record keymap := { km_keys : list key; km_vals : list Z }.
Definition km_new : keymap := {| km_keys := []; km_vals := [] |}.

(** util.go:332-342 [getIndex] (a nil key, passed only by put, is handled there) *)
Fixpoint index_from (i : Z) (k : key) (l : list key) : Z :=
  match l with
  | [] => -1
  | x :: t => if keqb x k then i else index_from (i + 1) k t
  end.
Definition get_index (m : keymap) (k : key) : Z := index_from 0 k (km_keys m).

Fixpoint replace_at {A} (i : nat) (v : A) (l : list A) : list A :=
  match l, i with
  | [], _ => []
  | _ :: t, O => v :: t
  | x :: t, S j => x :: replace_at j v t
  end.
Definition km_append (m : keymap) (k : key) (v : Z) : keymap :=
  {| km_keys := km_keys m ++ [k]; km_vals := km_vals m ++ [v] |}.

(** util.go:347-354 in [put]: the search for the first unused number; [fuel]
    bounds the rounds *)
Fixpoint free_int (fuel : nat) (n : Z) (m : keymap) : outcome Z :=
  match fuel with
  | O => OutOfFuel
  | S f => if get_index m (KInt n) <? 0 then Ret n else free_int f (n + 1) m
  end.
(** util.go:345-366 [put]; None is a nil key *)
Definition put (k : option key) (v : Z) (m : keymap) : outcome keymap :=
  match k with
  | None => obind (free_int (S (length (km_keys m))) 0 m) (fun n => Ret (km_append m (KInt n) v))
  | Some k =>
      let i := get_index m k in
      if i <? 0 then Ret (km_append m k v)
      else if i <? Z.of_nat (length (km_vals m)) then Ret {| km_keys := km_keys m; km_vals := replace_at (Z.to_nat i) v (km_vals m) |}
      else Panic
  end.
(** util.go:369-386 [delete]: the three cases; reslicing beyond the length
    panics.  append(s[:i], s[i+1:]...) moves the later elements down in place:
    the effect on other slices of the same array is in CidModel *)
Definition cut {A} (i : nat) (l : list A) : list A :=
  match i with
  | O => match l with [] => [] | _ :: t => t end
  | _ => if Nat.eqb i (length l - 1) then firstn (length l - 1) l else firstn i l ++ skipn (S i) l
  end.
Definition delete (k : key) (m : keymap) : keymap :=
  let i := get_index m k in
  if 0 <=? i then {| km_keys := cut (Z.to_nat i) (km_keys m); km_vals := cut (Z.to_nat i) (km_vals m) |} else m.
(** util.go:389-395 [get] *)
Definition get (k : key) (m : keymap) : outcome Z :=
  let i := get_index m k in
  if 0 <=? i then match nth_error (km_vals m) (Z.to_nat i) with Some v => Ret v | None => Panic end else Ret 0.
(** util.go:398-401 [pop] *)
Definition pop (m : keymap) : outcome keymap :=
  match km_keys m, km_vals m with
  | [], _ => Panic
  | _, [] => Panic
  | ks, vs => Ret {| km_keys := removelast ks; km_vals := removelast vs |}
  end.

(** ** Proofs *)
Lemma keqb_eq a b : keqb a b = true <-> a = b.
Proof.
  destruct a, b; cbn; try (split; intros H; discriminate H).
  - rewrite Z.eqb_eq. split; congruence.
  - rewrite beqb_eq. split; congruence.
Qed.
Lemma keqb_refl a : keqb a a = true.
Proof. now apply keqb_eq. Qed.
Lemma keqb_neq a b : keqb a b = false <-> a <> b.
Proof. destruct (keqb a b) eqn:E; [apply keqb_eq in E; split; congruence|]. split; [|easy]. intros _ ->. now rewrite keqb_refl in E. Qed.

Lemma index_from_shift k l : forall i, index_from i k l = if index_from 0 k l <? 0 then -1 else i + index_from 0 k l.
Proof.
  induction l as [|x l IH]; intros i; [reflexivity|]. cbn [index_from]. destruct (keqb x k).
  - cbn. lia.
  - rewrite (IH (i + 1)), (IH (0 + 1)). destruct (Z.ltb_spec (index_from 0 k l) 0) as [H|H].
    + reflexivity.
    + replace (0 + 1 + index_from 0 k l <? 0) with false by lia. lia.
Qed.
(** the index as an optional position *)
Fixpoint pos (k : key) (l : list key) : option nat :=
  match l with [] => None | x :: t => if keqb x k then Some O else option_map S (pos k t) end.
Lemma index_pos k l : index_from 0 k l = match pos k l with Some i => Z.of_nat i | None => -1 end.
Proof.
  induction l as [|x l IH]; [reflexivity|]. cbn [index_from pos]. destruct (keqb x k); [reflexivity|].
  rewrite index_from_shift, IH. destruct (pos k l); cbn [option_map].
  - replace (Z.of_nat n <? 0) with false by lia. lia.
  - reflexivity.
Qed.
Lemma pos_some k l i : pos k l = Some i -> nth_error l i = Some k /\ (forall j, (j < i)%nat -> nth_error l j <> Some k).
Proof.
  revert i. induction l as [|x l IH]; intros i; [discriminate|]. cbn [pos]. destruct (keqb x k) eqn:E.
  - intros [= <-]. apply keqb_eq in E as ->. split; [reflexivity|]. lia.
  - destruct (pos k l) as [j|]; [|discriminate]. intros [= <-]. destruct (IH j eq_refl) as [A B]. split; [exact A|].
    intros [|j'] Hj; cbn; [apply keqb_neq in E; congruence|]. apply B. lia.
Qed.
Lemma pos_none k l : pos k l = None <-> ~ In k l.
Proof.
  induction l as [|x l IH]; [cbn; tauto|]. cbn [pos In]. destruct (keqb x k) eqn:E.
  - apply keqb_eq in E as ->. split; [discriminate|tauto].
  - apply keqb_neq in E. destruct (pos k l); cbn [option_map]; split; try easy.
    + intros H. exfalso. assert (~ In k l) by tauto. now apply IH in H0.
    + intros _. apply proj1 in IH. specialize (IH eq_refl). tauto.
Qed.
Lemma pos_app_l k a b : In k a -> pos k (a ++ b) = pos k a.
Proof.
  induction a as [|x a IH]; [easy|]. cbn [app pos In]. intros H. destruct (keqb x k) eqn:E; [reflexivity|].
  apply keqb_neq in E. rewrite IH by tauto. reflexivity.
Qed.
Lemma pos_app_r k a b : ~ In k a -> pos k (a ++ b) = option_map (fun i => (length a + i)%nat) (pos k b).
Proof.
  induction a as [|x a IH]; cbn [app pos In length]; intros H; [now destruct (pos k b)|].
  destruct (keqb x k) eqn:E; [apply keqb_eq in E; tauto|]. rewrite IH by tauto. now destruct (pos k b).
Qed.

(** a well-formed map: as many values as keys, no key twice *)
Record km_ok (m : keymap) : Prop := { ok_len : length (km_keys m) = length (km_vals m); ok_nodup : NoDup (km_keys m) }.
Lemma km_new_ok : km_ok km_new.
Proof. constructor; [reflexivity|constructor]. Qed.

(** the value of a key, as a partial function *)
Definition value (m : keymap) (k : key) : option Z :=
  match pos k (km_keys m) with Some i => nth_error (km_vals m) i | None => None end.
Lemma get_value m k : km_ok m -> get k m = Ret (match value m k with Some v => v | None => 0 end).
Proof.
  intros [L _]. unfold get, value, get_index. rewrite index_pos. destruct (pos k (km_keys m)) as [i|] eqn:E; [|reflexivity].
  replace (0 <=? Z.of_nat i) with true by lia. rewrite Nat2Z.id. destruct (nth_error (km_vals m) i) eqn:F; [reflexivity|].
  apply nth_error_None in F. apply pos_some in E as [E _]. assert (i < length (km_keys m))%nat by (apply nth_error_Some; congruence). lia.
Qed.
Lemma value_in m k : km_ok m -> (In k (km_keys m) <-> value m k <> None).
Proof.
  intros [L _]. unfold value. destruct (pos k (km_keys m)) as [i|] eqn:E.
  - apply pos_some in E as [E _]. split; [|intros _; now apply nth_error_In in E]. intros _. apply nth_error_Some. rewrite <- L. apply nth_error_Some. congruence.
  - apply pos_none in E. tauto.
Qed.

Lemma free_int_spec m : forall f n, (forall i, 0 <= i < n -> In (KInt i) (km_keys m)) -> 0 <= n -> NoDup (km_keys m) -> (Z.of_nat (length (km_keys m)) < Z.of_nat f + n) ->
  exists r, free_int f n m = Ret r /\ n <= r /\ ~ In (KInt r) (km_keys m) /\ forall i, 0 <= i < r -> In (KInt i) (km_keys m).
Proof.
  induction f as [|f IH]; intros n Hin Hn ND Hf.
  - exfalso. assert (length (map (fun i => KInt (Z.of_nat i)) (seq 0 (Z.to_nat n))) <= length (km_keys m))%nat as L; [|rewrite map_length, seq_length in L; lia].
    apply NoDup_incl_length.
    + apply FinFun.Injective_map_NoDup; [intros a b [= H]; lia|apply seq_NoDup].
    + intros k Hk. apply in_map_iff in Hk as (i & <- & Hi). apply in_seq in Hi. apply Hin. lia.
  - cbn [free_int]. unfold get_index. rewrite index_pos. destruct (pos (KInt n) (km_keys m)) as [i|] eqn:E.
    + replace (Z.of_nat i <? 0) with false by lia.
      assert (In (KInt n) (km_keys m)) by (apply pos_some in E as [E _]; now apply nth_error_In in E).
      destruct (IH (n + 1)) as (r & R1 & R2 & R3); try lia; try assumption.
      * intros j Hj. destruct (Z.eq_dec j n) as [->|]; [assumption|]. apply Hin. lia.
      * exists r. split; [exact R1|]. split; [lia|exact R3].
    + cbn. exists n. split; [reflexivity|]. split; [lia|]. split; [now apply pos_none|exact Hin].
Qed.

Lemma replace_at_length {A} i (v : A) l : length (replace_at i v l) = length l.
Proof. revert i. induction l as [|x l IH]; intros [|i]; cbn; auto. Qed.
Lemma nth_replace_at {A} i (v : A) l : (i < length l)%nat -> forall j, nth_error (replace_at i v l) j = if Nat.eqb j i then Some v else nth_error l j.
Proof.
  revert i. induction l as [|x l IH]; intros i Hi j; [cbn in Hi; lia|]. destruct i as [|i], j as [|j]; try reflexivity.
  cbn. rewrite IH; [reflexivity|cbn in Hi; lia].
Qed.
Lemma cut_spec {A} i (l : list A) : (i < length l)%nat -> cut i l = firstn i l ++ skipn (S i) l.
Proof.
  intros H. unfold cut. destruct i as [|i]; [now destruct l|]. destruct (Nat.eqb_spec (S i) (length l - 1)) as [E|E]; [|reflexivity].
  rewrite E. rewrite (skipn_all2 l) by lia. now rewrite app_nil_r.
Qed.

Lemma append_ok m k v : km_ok m -> ~ In k (km_keys m) -> km_ok (km_append m k v).
Proof.
  intros [L N] H. constructor; cbn.
  - rewrite !app_length. cbn. lia.
  - rewrite <- (rev_involutive (km_keys m ++ [k])). apply NoDup_rev. rewrite rev_app_distr. cbn.
    constructor; [rewrite <- in_rev; exact H|]. now apply NoDup_rev.
Qed.
Lemma append_value m k v k' : km_ok m -> ~ In k (km_keys m) -> value (km_append m k v) k' = if keqb k k' then Some v else value m k'.
Proof.
  intros [L N] H. unfold value. cbn. destruct (keqb k k') eqn:E.
  - apply keqb_eq in E as <-. rewrite pos_app_r by exact H. cbn. rewrite keqb_refl. cbn [option_map]. rewrite Nat.add_0_r, L, nth_error_app2, Nat.sub_diag by lia. reflexivity.
  - destruct (pos k' (km_keys m)) as [i|] eqn:P.
    + assert (In k' (km_keys m)) by (apply pos_some in P as [P _]; now apply nth_error_In in P).
      rewrite pos_app_l, P by assumption. apply nth_error_app1. apply pos_some in P as [P _]. rewrite <- L. apply nth_error_Some. congruence.
    + apply pos_none in P. rewrite pos_app_r by exact P. cbn. now rewrite E.
Qed.

Lemma pos_nth k l i : NoDup l -> nth_error l i = Some k -> pos k l = Some i.
Proof.
  intros N H. destruct (pos k l) as [j|] eqn:E.
  - apply pos_some in E as [E _]. f_equal. eapply NoDup_nth_error; [exact N| |congruence]. apply nth_error_Some. congruence.
  - apply pos_none in E. now apply nth_error_In in H.
Qed.
Lemma nth_skipn {A} n : forall (l : list A) j, nth_error (skipn n l) j = nth_error l (n + j).
Proof. induction n as [|n IH]; intros l j; [reflexivity|]. destruct l; [now destruct j|]. apply IH. Qed.
Lemma nth_cut {A} i (l : list A) j : nth_error (firstn i l ++ skipn (S i) l) j = if (j <? i)%nat then nth_error l j else nth_error l (S j).
Proof.
  destruct (Nat.ltb_spec j i) as [H|H].
  - destruct (Nat.ltb_spec j (length l)) as [F|F].
    + rewrite nth_error_app1 by (rewrite firstn_length; lia). revert i l H F. induction j as [|j IH]; intros [|i] [|x l] H F; cbn in *; try lia; auto. apply IH; lia.
    + rewrite (proj2 (nth_error_None l j)) by exact F. apply nth_error_None. rewrite app_length, firstn_length, skipn_length. lia.
  - destruct (Nat.ltb_spec i (length l)) as [F|F].
    + rewrite nth_error_app2 by (rewrite firstn_length; lia). rewrite firstn_length, Nat.min_l by lia. rewrite nth_skipn. f_equal. lia.
    + rewrite (proj2 (nth_error_None l (S j))) by lia. apply nth_error_None. rewrite app_length, firstn_length, skipn_length. lia.
Qed.
Lemma filter_all {A} (f : A -> bool) l : (forall x, In x l -> f x = true) -> filter f l = l.
Proof. induction l as [|x l IH]; intros H; [reflexivity|]. cbn. rewrite (H x (or_introl eq_refl)). f_equal. apply IH. intros y Hy. apply H. now right. Qed.
Lemma filter_cut k l i : NoDup l -> nth_error l i = Some k -> filter (fun x => negb (keqb x k)) l = firstn i l ++ skipn (S i) l.
Proof.
  intros N. revert i. induction N as [|x l Hx N IH]; intros [|i] H; try discriminate.
  - injection H as ->. cbn. rewrite keqb_refl. cbn. rewrite filter_all; [reflexivity|]. intros y Hy. apply negb_true_iff, keqb_neq. congruence.
  - cbn in H. cbn. assert (x <> k) by (intros ->; apply nth_error_In in H; contradiction). apply keqb_neq in H0. rewrite H0. cbn. now rewrite (IH i H).
Qed.
Lemma filter_nodup {A} (f : A -> bool) l : NoDup l -> NoDup (filter f l).
Proof. apply NoDup_filter. Qed.

Lemma delete_spec k m : km_ok m -> km_ok (delete k m) /\ km_keys (delete k m) = filter (fun x => negb (keqb x k)) (km_keys m) /\
  forall k', value (delete k m) k' = if keqb k' k then None else value m k'.
Proof.
  intros O. pose proof O as [L N]. unfold delete, get_index. rewrite index_pos. destruct (pos k (km_keys m)) as [i|] eqn:P.
  2:{ cbn. apply pos_none in P. split; [exact O|]. split.
    - symmetry. apply filter_all. intros y Hy. apply negb_true_iff, keqb_neq. congruence.
    - intros k'. destruct (keqb k' k) eqn:E; [|reflexivity]. apply keqb_eq in E as ->. unfold value. apply pos_none in P. now rewrite P. }
  replace (0 <=? Z.of_nat i) with true by lia. rewrite Nat2Z.id. pose proof (pos_some _ _ _ P) as [Pn _].
  assert (Hi : (i < length (km_keys m))%nat) by (apply nth_error_Some; congruence). cbn. rewrite !cut_spec by lia.
  pose proof (filter_cut k _ i N Pn) as F.
  assert (O' : km_ok {| km_keys := firstn i (km_keys m) ++ skipn (S i) (km_keys m); km_vals := firstn i (km_vals m) ++ skipn (S i) (km_vals m) |}).
  { constructor; cbn [km_keys km_vals]; [rewrite !app_length, !firstn_length, !skipn_length; lia|]. rewrite <- F. now apply NoDup_filter. }
  split; [exact O'|]. split; [now rewrite F|].
  intros k'. unfold value. cbn [km_keys km_vals]. destruct (keqb k' k) eqn:E.
  - apply keqb_eq in E as ->. destruct (pos k (firstn i (km_keys m) ++ skipn (S i) (km_keys m))) eqn:Q; [|reflexivity].
    exfalso. rewrite <- F in Q. apply pos_some in Q as [Q _]. apply nth_error_In, filter_In in Q as [_ Q]. now rewrite keqb_refl in Q.
  - destruct (pos k' (km_keys m)) as [j|] eqn:Q.
    + pose proof (pos_some _ _ _ Q) as [Qn _].
      assert (j <> i) by (intros ->; rewrite Pn in Qn; injection Qn as ->; now rewrite keqb_refl in E).
      destruct (Nat.ltb_spec j i).
      * erewrite pos_nth; [|apply O'|cbn [km_keys]; rewrite nth_cut; replace (j <? i)%nat with true by (symmetry; now apply Nat.ltb_lt); exact Qn].
        rewrite nth_cut. replace (j <? i)%nat with true by (symmetry; now apply Nat.ltb_lt). reflexivity.
      * erewrite (pos_nth k' _ (j - 1)); [|apply O'|cbn [km_keys]; rewrite nth_cut; replace (j - 1 <? i)%nat with false by (symmetry; apply Nat.ltb_ge; lia); replace (S (j - 1)) with j by lia; exact Qn].
        rewrite nth_cut. replace (j - 1 <? i)%nat with false by (symmetry; apply Nat.ltb_ge; lia). replace (S (j - 1)) with j by lia. reflexivity.
    + assert (pos k' (firstn i (km_keys m) ++ skipn (S i) (km_keys m)) = None) as ->; [|reflexivity].
      apply pos_none. rewrite <- F, filter_In. apply pos_none in Q. tauto.
Qed.

Lemma put_spec k v m : km_ok m -> exists m', put (Some k) v m = Ret m' /\ km_ok m' /\
  km_keys m' = (if value m k then km_keys m else km_keys m ++ [k]) /\
  forall k', value m' k' = if keqb k k' then Some v else value m k'.
Proof.
  intros O. pose proof O as [L N]. unfold put, get_index. rewrite index_pos. destruct (pos k (km_keys m)) as [i|] eqn:P.
  - replace (Z.of_nat i <? 0) with false by lia. pose proof (pos_some _ _ _ P) as [Pn _].
    assert (Hi : (i < length (km_keys m))%nat) by (apply nth_error_Some; congruence).
    replace (Z.of_nat i <? Z.of_nat (length (km_vals m))) with true by lia. rewrite Nat2Z.id. eexists. split; [reflexivity|]. split.
    { constructor; cbn; [now rewrite replace_at_length|exact N]. }
    split. { cbn. unfold value. rewrite P. destruct (nth_error (km_vals m) i) eqn:F; [reflexivity|]. apply nth_error_None in F. lia. }
    intros k'. unfold value. cbn [km_keys km_vals]. destruct (keqb k k') eqn:E.
    + apply keqb_eq in E as <-. rewrite P, nth_replace_at by lia. now rewrite Nat.eqb_refl.
    + destruct (pos k' (km_keys m)) as [j|] eqn:Q; [|reflexivity]. rewrite nth_replace_at by lia.
      destruct (Nat.eqb_spec j i) as [->|]; [|reflexivity]. apply pos_some in Q as [Q _]. rewrite Pn in Q. injection Q as ->. now rewrite keqb_refl in E.
  - cbn. apply pos_none in P. eexists. split; [reflexivity|]. split; [now apply append_ok|]. split.
    + unfold value. apply pos_none in P. now rewrite P.
    + intros k'. now apply append_value.
Qed.
Lemma put_nil_spec v m : km_ok m -> exists n m', put None v m = Ret m' /\ km_ok m' /\
  0 <= n /\ ~ In (KInt n) (km_keys m) /\ (forall i, 0 <= i < n -> In (KInt i) (km_keys m)) /\
  km_keys m' = km_keys m ++ [KInt n] /\ forall k', value m' k' = if keqb (KInt n) k' then Some v else value m k'.
Proof.
  intros O. pose proof O as [L N]. destruct (free_int_spec m (S (length (km_keys m))) 0) as (n & F & Hn & Hf & Hl); try lia; [exact N|].
  unfold put. rewrite F. cbn [obind]. exists n. eexists. split; [reflexivity|]. split; [now apply append_ok|]. split; [exact Hn|]. split; [exact Hf|]. split; [exact Hl|].
  split; [reflexivity|]. intros k'. now apply append_value.
Qed.
Lemma pop_spec m : km_ok m -> km_keys m <> [] -> exists m' k, pop m = Ret m' /\ km_ok m' /\ km_keys m = km_keys m' ++ [k] /\
  forall k', value m' k' = if keqb k k' then None else value m k'.
Proof.
  intros [L N] Hne. destruct (exists_last Hne) as (ks & k & Ek).
  assert (Hv : km_vals m <> []). { destruct (km_vals m); [|easy]. cbn in L. now destruct (km_keys m). }
  destruct (exists_last Hv) as (vs & v & Ev).
  assert (Lk : length ks = length vs). { rewrite Ek, Ev, !app_length in L. cbn in L. lia. }
  unfold pop. destruct (km_keys m) as [|k0 t] eqn:E1; [easy|]. destruct (km_vals m) as [|v0 t'] eqn:E2; [easy|]. rewrite Ek, Ev, !removelast_last.
  assert (Nk : NoDup ks /\ ~ In k ks). { rewrite Ek in N. apply NoDup_remove in N. rewrite app_nil_r in N. exact N. }
  destruct Nk as [Nk Hk]. exists {| km_keys := ks; km_vals := vs |}, k. split; [reflexivity|]. split; [now constructor|]. split; [reflexivity|].
  intros k'. unfold value. rewrite E1, Ek, E2, Ev. cbn [km_keys km_vals]. destruct (keqb k k') eqn:E.
  - apply keqb_eq in E as <-. apply pos_none in Hk. now rewrite Hk.
  - destruct (pos k' ks) as [i|] eqn:P.
    + rewrite pos_app_l by (apply pos_some in P as [P _]; now apply nth_error_In in P). rewrite P.
      symmetry. apply nth_error_app1. rewrite <- Lk. apply pos_some in P as [P _]. apply nth_error_Some. congruence.
    + apply pos_none in P. rewrite pos_app_r by exact P. cbn. now rewrite E.
Qed.

(** ** C52: every map reachable by the operations is an ordered map *)
Inductive reachable : keymap -> Prop :=
| r_new : reachable km_new
| r_put k v m m' : reachable m -> put k v m = Ret m' -> reachable m'
| r_delete k m : reachable m -> reachable (delete k m)
| r_pop m m' : reachable m -> pop m = Ret m' -> reachable m'.
Lemma reachable_ok m : reachable m -> km_ok m.
Proof.
  induction 1 as [|k v m m' _ IH E|k m _ IH|m m' _ IH E].
  - exact km_new_ok.
  - destruct k as [k|].
    + destruct (put_spec k v m IH) as (m2 & E2 & O & _). congruence.
    + destruct (put_nil_spec v m IH) as (n & m2 & E2 & O & _). congruence.
  - now apply delete_spec.
  - destruct (pop_spec m IH) as (m2 & k & E2 & O & _); [|congruence]. intros F. unfold pop in E. rewrite F in E. discriminate.
Qed.

Theorem C52_ordered_map : forall m, reachable m ->
  length (km_keys m) = length (km_vals m) /\ NoDup (km_keys m) /\
  (* get: 0 for an absent key *)
  (forall k, ~ In k (km_keys m) -> get k m = Ret 0) /\
  (* put: the key has the value, an old key keeps its place, a new one goes last, the others are untouched *)
  (forall k v, exists m', put (Some k) v m = Ret m' /\ get k m' = Ret v /\
     (In k (km_keys m) -> km_keys m' = km_keys m) /\ (~ In k (km_keys m) -> km_keys m' = km_keys m ++ [k]) /\
     forall k', k' <> k -> get k' m' = get k' m) /\
  (* put without a key: the smallest unused number *)
  (forall v, exists n m', put None v m = Ret m' /\ 0 <= n /\ ~ In (KInt n) (km_keys m) /\ (forall i, 0 <= i < n -> In (KInt i) (km_keys m)) /\
     km_keys m' = km_keys m ++ [KInt n] /\ get (KInt n) m' = Ret v /\ forall k', k' <> KInt n -> get k' m' = get k' m) /\
  (* delete: the key is gone, the others and their order stay *)
  (forall k, get k (delete k m) = Ret 0 /\ km_keys (delete k m) = filter (fun x => negb (keqb x k)) (km_keys m) /\
     forall k', k' <> k -> get k' (delete k m) = get k' m) /\
  (* pop: the last key is gone *)
  (forall ks k, km_keys m = ks ++ [k] -> exists m', pop m = Ret m' /\ km_keys m' = ks /\ get k m' = Ret 0 /\
     forall k', k' <> k -> get k' m' = get k' m).
Proof.
  intros m R. pose proof (reachable_ok m R) as O. split; [apply O|]. split; [apply O|].
  assert (NE : forall a b : key, a <> b -> keqb b a = false) by (intros a b H; apply keqb_neq; congruence).
  split. { intros k H. rewrite get_value by exact O. apply pos_none in H. unfold value. now rewrite H. }
  split; [|split; [|split]].
  - intros k v. destruct (put_spec k v m O) as (m' & E & O' & K & V). exists m'. split; [exact E|]. rewrite !get_value, V, keqb_refl by exact O'.
    split; [reflexivity|]. rewrite K. split; [|split].
    + intros H. apply (value_in m k O) in H. now destruct (value m k).
    + intros H. rewrite (value_in m k O) in H. destruct (value m k); [|reflexivity]. exfalso. apply H. discriminate.
    + intros k' H. now rewrite !get_value, V, NE by assumption.
  - intros v. destruct (put_nil_spec v m O) as (n & m' & E & O' & H1 & H2 & H3 & H4 & V). exists n, m'. repeat (split; [assumption|]).
    rewrite !get_value, V, keqb_refl by exact O'. split; [reflexivity|]. intros k' H. now rewrite !get_value, V, NE by assumption.
  - intros k. destruct (delete_spec k m O) as (O' & K & V). rewrite !get_value, V, keqb_refl by exact O'. split; [reflexivity|]. split; [exact K|].
    intros k' H. rewrite !get_value, V by assumption. apply keqb_neq in H. now rewrite H.
  - intros ks k E. destruct (pop_spec m O) as (m' & k0 & P & O' & K & V). { rewrite E. now destruct ks. }
    rewrite E in K. apply app_inj_tail in K as [-> ->]. exists m'. split; [exact P|]. split; [reflexivity|]. rewrite !get_value, V, keqb_refl by exact O'. split; [reflexivity|].
    intros k' H. now rewrite !get_value, V, NE by assumption.
Qed.
Print Assumptions C52_ordered_map.

Example C52_ex : exists m, reachable m /\ km_keys m = [KInt 0; KStr (bs "interval"%string); KInt 2; KInt 1] /\ km_vals m = [7; 1; 4; 9].
Proof.
  exists {| km_keys := [KInt 0; KStr (bs "interval"%string); KInt 2; KInt 1]; km_vals := [7; 1; 4; 9] |}. split; [|split; reflexivity].
  assert (R2 : reachable {| km_keys := [KInt 0; KInt 1]; km_vals := [7; 8] |}).
  { apply (r_put None 8 {| km_keys := [KInt 0]; km_vals := [7] |}); [|reflexivity]. apply (r_put None 7 km_new); [constructor|reflexivity]. }
  assert (R4 : reachable {| km_keys := [KInt 0; KInt 1; KStr (bs "interval"%string); KInt 2]; km_vals := [7; 8; 1; 4] |}).
  { eapply (r_put (Some (KInt 2)) 4); [eapply (r_put (Some (KStr (bs "interval"%string))) 1); [exact R2|reflexivity]|reflexivity]. }
  apply (r_delete (KInt 1)) in R4. eapply (r_put None 9); [exact R4|reflexivity].
Qed.
