(** The glyphs of the new font and their order. *)
From Verif Require Import Base DocModel DocSort TtfSpec TtfModel TtfProofs CutSpec CutModel CutProofs CutClosure.
From Coq Require Import String Permutation Sorted.
Open Scope Z_scope.
Notation length := List.length.
Notation concat := List.concat.

Lemma dedup_in l x : In x (dedup l) <-> In x l.
Proof.
  induction l as [|a l IH]; [reflexivity|]. cbn [dedup]. destruct (existsb (Z.eqb a) l) eqn:E.
  - rewrite IH. split; [now right|]. intros [->|H]; [|exact H]. apply existsb_exists in E as (y & Hy & E). apply Z.eqb_eq in E. now subst y.
  - cbn [In]. now rewrite IH.
Qed.
Lemma dedup_nodup l : NoDup (dedup l).
Proof.
  induction l as [|a l IH]; [constructor|]. cbn [dedup]. destruct (existsb (Z.eqb a) l) eqn:E; [exact IH|]. constructor; [|exact IH].
  rewrite dedup_in. intros H. assert (X : existsb (Z.eqb a) l = true) by (apply existsb_exists; exists a; split; [exact H|apply Z.eqb_refl]). congruence.
Qed.
Lemma range_S a n : range a (S n) = a :: range (a + 1) n.
Proof.
  unfold range. cbn [seq map]. f_equal; [cbn; lia|]. rewrite <- seq_shift, map_map. apply map_ext. intros i. lia.
Qed.
Lemma index_combine keys : forall a g i, NoDup keys -> index_of (combine keys (range a (length keys))) g = Some i <-> a <= i /\ nth_error keys (Z.to_nat (i - a)) = Some g.
Proof.
  induction keys as [|k keys IH]; intros a g i N.
  - cbn [length]. split; [discriminate|]. intros [_ H]. destruct (Z.to_nat (i - a)); discriminate.
  - cbn [length]. rewrite range_S. cbn [combine]. inversion N as [|? ? N1 N2]; subst. unfold index_of. cbn [find fst]. destruct (k =? g) eqn:E.
    + apply Z.eqb_eq in E. subst k. cbn [option_map snd]. split.
      * intros H. injection H as <-. rewrite Z.sub_diag. split; [lia|reflexivity].
      * intros [Hi H]. destruct (Z.to_nat (i - a)) as [|m] eqn:Em; [f_equal; lia|]. cbn [nth_error] in H. apply nth_error_In in H. contradiction.
    + fold (index_of (combine keys (range (a + 1) (length keys))) g). rewrite IH by exact N2. apply Z.eqb_neq in E. split.
      * intros [Hi H]. split; [lia|]. replace (Z.to_nat (i - a)) with (S (Z.to_nat (i - (a + 1)))) by lia. exact H.
      * intros [Hi H]. destruct (Z.to_nat (i - a)) as [|m] eqn:Em; [cbn in H; congruence|]. cbn [nth_error] in H. split; [lia|]. replace (Z.to_nat (i - (a + 1))) with m by lia. exact H.
Qed.
Lemma zsort_first l : In 0 l -> Forall (fun g => 0 <= g) l -> NoDup l -> nth_error (zsort l) 0 = Some 0.
Proof.
  intros H0 HF N. pose proof (sort_by_perm Z.ltb l) as Pm. pose proof (sort_sorted (fun x : Z => x) Z.ltb zltb_strict l) as S.
  unfold zsort. destruct (sort_by Z.ltb l) as [|k t] eqn:E.
  - apply Permutation_nil in Pm. subst l. destruct H0.
  - cbn [nth_error]. f_equal.  inversion S as [|? ? S1 S2]; subst.
    assert (Hk : 0 <= k). { rewrite Forall_forall in HF. apply HF. eapply Permutation_in; [exact Pm|]. now left. }
    assert (Hin : In 0 (k :: t)) by (eapply Permutation_in; [symmetry; exact Pm|exact H0]). destruct Hin as [Hin|Hin]; [exact Hin|].
    rewrite Forall_forall in S2. specialize (S2 _ Hin). unfold leK in S2. apply Z.ltb_ge in S2. lia.
Qed.

Lemma parse_symbols_ret fuel f dir gl locs dict used runes y last : Forall is_byte f -> find_desc dir (bs "glyf") = Some gl ->
  Forall (fun p => 0 <= snd p) dict -> parse_symbols fuel f dir locs dict used = Ret (runes, y, last) ->
  numbered y /\ nth_error (y_keys y) 0 = Some 0 /\
  (forall g, In g (y_keys y) <-> exists g0, In g0 (0 :: map snd (found_pairs dict used)) /\ reach f locs (t_pos gl) g0 g) /\
  map fst runes = map fst (found_pairs dict used) /\
  (forall c i, In (c, i) runes <-> exists g, In (c, g) (found_pairs dict used) /\ 0 <= i /\ nth_error (y_keys y) (Z.to_nat i) = Some g).
Proof.
  intros Hf Hgl Hd H. unfold parse_symbols in H. unfold seek_table in H. rewrite Hgl in H. cbn [obind] in H. set (found := found_pairs dict used) in *.
  set (keys := zsort (dedup (0 :: map snd found))) in *. set (st := combine keys (range 0 (length keys))) in *. obr H. injection H as <- <- <-.
  assert (Pm : Permutation keys (dedup (0 :: map snd found))) by apply sort_by_perm.
  assert (Nk : NoDup keys) by (eapply Permutation_NoDup; [symmetry; exact Pm|apply dedup_nodup]).
  assert (Ik : forall g, In g keys <-> In g (0 :: map snd found)).
  { intros g. rewrite <- (dedup_in (0 :: map snd found)). split; apply Permutation_in; [exact Pm|symmetry; exact Pm]. }
  assert (Fg : Forall (fun g => 0 <= g) (map snd found)).
  { apply Forall_map, Forall_forall. intros [c g] Hi. unfold found, found_pairs in Hi. apply in_flat_map in Hi as (x & _ & Hi).
    destruct (char_symbol dict x) as [s|] eqn:Es; [|destruct Hi]. destruct Hi as [Hi|[]]. injection Hi as -> ->. cbn [snd].
    unfold char_symbol in Es. destruct (find _ (rev dict)) as [[c' g']|] eqn:Ef; [|discriminate]. cbn in Es. injection Es as ->.
    apply find_some in Ef as [Ef _]. rewrite <- in_rev in Ef. rewrite Forall_forall in Hd. exact (Hd _ Ef). }
  assert (K0 : nth_error keys 0 = Some 0).
  { apply zsort_first; [apply dedup_in; now left| |apply dedup_nodup]. apply Forall_forall. intros g Hi. apply dedup_in in Hi as [<-|Hi]; [lia|]. rewrite Forall_forall in Fg. auto. }
  assert (Ny : numbered {| y_set := st; y_coll := keys; y_keys := keys |}).
  { constructor; cbn [y_keys y_coll y_set]; [exact Nk|reflexivity|]. intros g i. unfold st. rewrite index_combine by exact Nk. now rewrite Z.sub_0_r. }
  destruct (get_all_closed f locs (t_pos gl) Hf fuel keys _ _ E Ny (fun x h => h)) as (N1 & (new & Kn & R1) & A1). cbn [y_keys] in Kn.
  assert (KP : forall n g, nth_error keys n = Some g -> nth_error (y_keys v) n = Some g).
  { intros n g Hn. rewrite Kn, nth_error_app1; [exact Hn|]. apply nth_error_Some. congruence. }
  split; [exact N1|]. split; [now apply KP|]. split; [|split].
  - intros g. rewrite Kn, in_app_iff. split.
    + intros [H|H]; [exists g; split; [now apply Ik|constructor]|]. destruct (R1 g H) as (g0 & H0 & Hr). exists g0. split; [now apply Ik|exact Hr].
    + intros (g0 & H0 & Hr). apply Ik in H0. specialize (A1 g0 g H0 Hr). rewrite Kn in A1. now apply in_app_or.
  - rewrite map_map. now apply map_ext.
  - assert (KI : forall g, In g (map snd found) -> exists i, index_of st g = Some i /\ 0 <= i /\ nth_error (y_keys v) (Z.to_nat i) = Some g).
    { intros g Hg. assert (Hk : In g keys) by (apply Ik; now right). apply In_nth_error in Hk as (n & Hn). exists (Z.of_nat n).
      split; [apply (nb_index _ Ny); cbn [y_keys]; split; [lia|now rewrite Nat2Z.id]|]. split; [lia|]. rewrite Nat2Z.id. auto. }
    intros c i. rewrite in_map_iff. split.
    + intros ([c' g] & Hp & Hi). cbn [fst snd] in Hp. destruct (KI g) as (j & Hj & Hj0 & Hjn); [apply in_map_iff; exists (c', g); auto|]. rewrite Hj in Hp. injection Hp as -> ->. exists g. auto.
    + intros (g & Hi & Hi0 & Hn). exists (c, g). split; [|exact Hi]. cbn [fst snd]. destruct (KI g) as (j & Hj & Hj0 & Hjn); [apply in_map_iff; exists (c, g); auto|]. rewrite Hj.
      f_equal. assert (Z.to_nat j = Z.to_nat i); [|lia]. apply (proj1 (NoDup_nth_error (y_keys v)) (nb_nodup v N1)); [apply nth_error_Some; congruence|congruence].
Qed.
