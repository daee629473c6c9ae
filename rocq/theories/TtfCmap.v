(** C40: the character map of a subset font, read by the rules of OpenType. *)
From Verif Require Import Base DocModel DocSort TtfSpec TtfModel TtfProofs.
From Coq Require Import String Permutation Sorted.
Open Scope Z_scope.
Notation length := List.length.

(** ** Segments *)
Fixpoint zip (c : Z) (gs : list Z) : list (Z * Z) := match gs with [] => [] | g :: r => (c, g) :: zip (c + 1) r end.
Fixpoint consec (g : Z) (gs : list Z) : Prop := match gs with [] => True | x :: r => x = g /\ consec (g + 1) r end.
Definition pairs_of (e : Z * list Z) : list (Z * Z) := zip (fst e) (snd e).
Definition seg_ok (e : Z * list Z) : Prop := exists g r, snd e = g :: r /\ consec (g + 1) r.
Definition seg_end (e : Z * list Z) : Z := fst e + (Z.of_nat (length (snd e)) - 1).
Inductive segs : Z -> list (Z * list Z) -> Prop :=
| segs_nil b : segs b []
| segs_cons b e r : b < fst e -> seg_ok e -> segs (seg_end e) r -> segs b (e :: r).
Lemma seg_ok_end e : seg_ok e -> fst e <= seg_end e.
Proof. intros (g & r & E & _). unfold seg_end. rewrite E. cbn [length]. lia. Qed.
Lemma segs_snoc : forall l b e, segs b l -> seg_ok e -> (forall x, In x l -> seg_end x < fst e) -> b < fst e -> segs b (l ++ [e]).
Proof.
  induction l as [|x l IH]; intros b e H He Hx Hb; [constructor; auto; constructor|]. inversion H; subst. cbn. constructor; auto. apply IH; auto.
  - intros y Hy. apply Hx. now right.
  - apply Hx. now left.
Qed.
Lemma segs_start : forall l b x, segs b l -> In x l -> b < fst x.
Proof. induction l as [|e l IH]; intros b x H Hx; [destruct Hx|]. inversion H; subst. destruct Hx as [<-|Hx]; [assumption|]. specialize (IH _ _ ltac:(eassumption) Hx). pose proof (seg_ok_end e ltac:(assumption)). lia. Qed.
Lemma segs_app_inv : forall l b r, segs b (l ++ r) -> segs b l.
Proof. induction l as [|e l IH]; intros b r H; [constructor|]. inversion H; subst. constructor; auto. eapply IH; eauto. Qed.
Lemma segs_last : forall l b e x, segs b (l ++ [e]) -> In x l -> seg_end x < fst e.
Proof.
  induction l as [|y l IH]; intros b e x H Hx; [destruct Hx|]. cbn in H. inversion H; subst. destruct Hx as [<-|Hx]; [|eapply IH; eauto].
  eapply segs_start; [eassumption|]. apply in_or_app. right. now left.
Qed.
Lemma segs_ok_in : forall l b x, segs b l -> In x l -> seg_ok x.
Proof. induction l as [|e l IH]; intros b x H Hx; [destruct Hx|]. inversion H; subst. destruct Hx as [<-|Hx]; [assumption|eapply IH; eauto]. Qed.

Lemma segs_ok_l l b r x : segs b (l ++ r) -> In x l -> seg_ok x.
Proof. intros H Hx. eapply segs_ok_in; [exact H|]. apply in_or_app. now left. Qed.
Lemma segs_ok_last l b e : segs b (l ++ [e]) -> seg_ok e.
Proof. intros H. eapply segs_ok_in; [exact H|]. apply in_or_app. right. now left. Qed.
Lemma segs_start_last l b e : segs b (l ++ [e]) -> b < fst e.
Proof. intros H. eapply segs_start; [exact H|]. apply in_or_app. right. now left. Qed.
Lemma consec_snoc : forall gs g x, consec g gs -> x = g + Z.of_nat (length gs) -> consec g (gs ++ [x]).
Proof. induction gs as [|y gs IH]; intros g x H ->; cbn [app consec length] in *; [split; [lia|exact I]|]. destruct H as [-> H]. split; [reflexivity|]. apply IH; [exact H|]. lia. Qed.
Lemma consec_last : forall gs g, consec g gs -> gs <> [] -> last gs 0 = g + Z.of_nat (length gs) - 1.
Proof.
  induction gs as [|y gs IH]; intros g H N; [easy|]. destruct H as [-> H]. destruct gs as [|z gs]; [cbn; lia|].
  change (last (g :: z :: gs) 0) with (last (z :: gs) 0). rewrite (IH (g + 1) H) by easy. cbn [length]. lia.
Qed.
Lemma zip_snoc : forall gs c g, zip c (gs ++ [g]) = zip c gs ++ [(c + Z.of_nat (length gs), g)].
Proof. induction gs as [|x gs IH]; intros c g; cbn [app zip length]; [now rewrite Z.add_0_r|]. rewrite IH. cbn [app]. do 4 f_equal. lia. Qed.
Lemma in_zip : forall gs c g x y, consec g gs -> (In (x, y) (zip c gs) <-> c <= x < c + Z.of_nat (length gs) /\ y = g + (x - c)).
Proof.
  induction gs as [|z gs IH]; intros c g x y H; cbn [zip In length]; [split; [easy|lia]|]. destruct H as [-> H]. rewrite (IH (c + 1) (g + 1) x y H). split.
  - intros [[= <- <-]|X]; lia.
  - intros [X ->]. destruct (Z.eq_dec x c) as [->|]; [left; f_equal; lia|right; lia].
Qed.

Record linv (done : list (Z * Z)) (s : mst) : Prop := {
  li_pairs : flat_map pairs_of (m_arr s) = done;
  li_segs : segs (-1) (m_arr s);
  li_last : (m_arr s = [] /\ done = [] /\ m_pc s = -2 /\ m_ps s = -1) \/
            exists l gs, m_arr s = l ++ [(m_id s, gs)] /\ m_pc s = seg_end (m_id s, gs) /\ last gs 0 = m_ps s }.
Lemma append_at_last : forall l k g gs, (forall x, In x l -> fst x <> k) -> append_at k g (l ++ [(k, gs)]) = l ++ [(k, gs ++ [g])].
Proof.
  induction l as [|[x y] l IH]; intros k g gs H; cbn [app append_at]; [now rewrite Z.eqb_refl|].
  destruct (Z.eqb_spec x k) as [->|]; [exfalso; now apply (H (k, y)); [left|]|]. rewrite IH; [reflexivity|]. intros z Hz. apply H. now right.
Qed.
Lemma set_at_new l k gs : (forall x : Z * list Z, In x l -> fst x <> k) -> set_at k gs l = l ++ [(k, gs)].
Proof.
  intros H. unfold set_at. f_equal. induction l as [|x l IH]; [reflexivity|]. cbn [filter]. replace (fst x =? k) with false.
  - cbn. f_equal. apply IH. intros y Hy. apply H. now right.
  - symmetry. apply Z.eqb_neq. apply H. now left.
Qed.
Lemma step_inv done s c g : linv done s -> 0 <= c -> m_pc s < c -> linv (done ++ [(c, g)]) (cmap_step s (c, g)) /\ m_pc (cmap_step s (c, g)) = c.
Proof.
  intros [P S L] H0 Hc. unfold cmap_step. destruct ((c =? m_pc s + 1) && (g =? m_ps s + 1)) eqn:E.
  - apply andb_true_iff in E as [E1 E2]. apply Z.eqb_eq in E1, E2. split; [|reflexivity].
    destruct L as [(_ & _ & L & _)|(l & gs & Ea & Ep & El)]; [lia|].
    rewrite Ea in *. assert (D : forall x, In x l -> fst x <> m_id s).
    { intros x Hx. pose proof (segs_last _ _ _ _ S Hx) as X. pose proof (seg_ok_end x (segs_ok_l _ _ _ _ S Hx)). cbn [fst] in X. lia. }
    pose proof (segs_ok_last _ _ _ S) as (g0 & r & Eg & Hr). cbn [snd] in Eg. subst gs.
    rewrite append_at_last by exact D. constructor; cbn [m_arr m_id m_pc m_ps].
    + rewrite flat_map_app in P. cbn [flat_map] in P. rewrite app_nil_r in P. rewrite flat_map_app. cbn [flat_map]. rewrite app_nil_r. unfold pairs_of at 2. cbn [fst snd]. rewrite zip_snoc, app_assoc. unfold pairs_of in P at 2. cbn [fst snd] in P. rewrite P. do 3 f_equal.
      unfold seg_end in Ep. cbn [fst snd] in Ep. lia.
    + apply segs_snoc; [eapply segs_app_inv; eauto| | |].
      * exists g0, (r ++ [g]). split; [reflexivity|]. apply consec_snoc; [exact Hr|].
        pose proof (consec_last (g0 :: r) g0 (conj eq_refl Hr) ltac:(easy)) as X. rewrite El in X. cbn [length] in X. lia.
      * intros x Hx. exact (segs_last _ _ _ _ S Hx).
      * pose proof (segs_start_last _ _ _ S) as X. exact X.
    + right. exists l, ((g0 :: r) ++ [g]). split; [reflexivity|]. split; [|apply last_last]. unfold seg_end in *. cbn [fst snd] in *. rewrite app_length. cbn [length] in *. lia.
  - split; [|reflexivity].
    assert (Hx : forall x, In x (m_arr s) -> seg_end x < c).
    { destruct L as [(L & _)|(l & gs & Ea & Ep & El)]; [rewrite L; easy|]. intros x Hx. rewrite Ea in *. apply in_app_or in Hx as [Hx|[<-|[]]]; [|lia].
      pose proof (segs_last _ _ _ _ S Hx) as X. pose proof (seg_ok_end (m_id s, gs) (segs_ok_last _ _ _ S)). lia. }
    assert (D : forall x, In x (m_arr s) -> fst x <> c).
    { intros x Hi. specialize (Hx x Hi). pose proof (seg_ok_end x (segs_ok_in _ _ _ S Hi)). lia. }
    rewrite set_at_new by exact D. constructor; cbn [m_arr m_id m_pc m_ps].
    + rewrite flat_map_app, P. reflexivity.
    + apply segs_snoc; auto; [exists g, []; split; [reflexivity|exact I]|cbn; lia].
    + right. exists (m_arr s), [g]. split; [reflexivity|]. split; [unfold seg_end; cbn; lia|reflexivity].
Qed.
Lemma loop_inv : forall l done s, linv done s -> Forall (fun p => m_pc s < fst p) l -> StronglySorted (fun a b => fst a < fst b) l -> Forall (fun p : Z * Z => 0 <= fst p) l ->
  linv (done ++ l) (fold_left cmap_step l s).
Proof.
  induction l as [|[c g] l IH]; intros done s H F S P; [now rewrite app_nil_r|]. inversion F; inversion S as [|? ? S' SF]; inversion P; subst. cbn [fold_left fst] in *.
  destruct (step_inv done s c g H) as [H' E]; auto. replace (done ++ (c, g) :: l) with ((done ++ [(c, g)]) ++ l) by now rewrite <- app_assoc.
  apply IH; auto. rewrite E. exact SF.
Qed.

(** sorting *)
Lemma sort_pairs_sorted {A} (l : list (Z * A)) : NoDup (map fst l) -> StronglySorted (fun a b => fst a < fst b) (sort_by (fun a b => fst a <? fst b) l).
Proof.
  intros N. pose proof (sort_sorted (@fst Z A) Z.ltb zltb_strict l) as S.
  assert (N' : NoDup (map fst (sort_by (fun a b : Z * A => fst a <? fst b) l))) by (eapply Permutation_NoDup; [|exact N]; apply Permutation_map; symmetry; apply sort_by_perm).
  revert N'. induction S as [|x r S IH F]; intros N'; constructor.
  - cbn in N'. inversion N'; subst. now apply IH.
  - cbn in N'. inversion N' as [|? ? X _]; subst. rewrite Forall_forall in *. intros y Hy. specialize (F y Hy). unfold leK in F.
    destruct (Z.eq_dec (fst x) (fst y)) as [E|E]; [exfalso; apply X; rewrite E; now apply in_map|]. apply Z.ltb_ge in F. lia.
Qed.
Lemma segs_sorted : forall l b, segs b l -> StronglySorted (fun a b => fst a < fst b) l.
Proof.
  induction l as [|e l IH]; intros b H; [constructor|]. inversion H; subst. constructor; [eapply IH; eauto|]. apply Forall_forall. intros x Hx.
  pose proof (segs_start _ _ _ ltac:(eassumption) Hx). pose proof (seg_ok_end e ltac:(assumption)). lia.
Qed.
Lemma sort_sorted_id {A} (l : list (Z * A)) : StronglySorted (fun a b => fst a < fst b) l -> sort_by (fun a b => fst a <? fst b) l = l.
Proof.
  intros S. apply (sorted_unique (@fst Z A) Z.ltb zltb_strict).
  - apply (sort_sorted (@fst Z A) Z.ltb zltb_strict).
  - clear -S. induction S as [|x r S IH F]; constructor; [exact IH|]. eapply Forall_impl; [|exact F]. intros y Hy. unfold leK. apply Z.ltb_ge. cbn beta in Hy. lia.
  - apply sort_by_perm.
  - eapply Permutation_NoDup; [apply Permutation_map; symmetry; apply sort_by_perm|]. clear -S. induction S as [|x r S IH F]; [constructor|]. cbn. constructor; [|exact IH].
    intros X. apply in_map_iff in X as (y & E & Hy). rewrite Forall_forall in F. specialize (F y Hy). cbn in F. lia.
Qed.

(** ** Lookup *)
Fixpoint seg_lookup (l : list (Z * list Z)) (c : Z) : Z :=
  match l with
  | [] => 0
  | e :: r => if c <=? seg_end e then if c <? fst e then 0 else (c + (hd 0 (snd e) - fst e)) mod 65536 else seg_lookup r c
  end.
Lemma seg_lookup_spec : forall l b c, segs b l ->
  (forall g, In (c, g) (flat_map pairs_of l) -> seg_lookup l c = g mod 65536) /\ ((forall g, ~ In (c, g) (flat_map pairs_of l)) -> seg_lookup l c = 0).
Proof.
  induction l as [|e l IH]; intros b c H; [split; [easy|reflexivity]|]. inversion H as [|? ? ? Hb Ho Hs]; subst. destruct (IH _ c Hs) as [I1 I2]. cbn [flat_map seg_lookup].
  destruct Ho as (g0 & r & Eg & Hr). assert (Hc : consec g0 (snd e)) by (rewrite Eg; split; [reflexivity|exact Hr]).
  assert (Z1 := fun y => in_zip (snd e) (fst e) g0 c y Hc). change (zip (fst e) (snd e)) with (pairs_of e) in Z1.
  assert (Later : forall g, In (c, g) (flat_map pairs_of l) -> seg_end e < c).
  { intros g X. apply in_flat_map in X as (f & Hf & X). pose proof (segs_start _ _ _ Hs Hf). destruct (segs_ok_in _ _ _ Hs Hf) as (h & q & Eq & Hq).
    apply (in_zip _ _ h) in X; [lia|]. rewrite Eq. split; [reflexivity|exact Hq]. }
  unfold seg_end in *. split.
  - intros g X. apply in_app_or in X as [X|X].
    + apply Z1 in X as [X ->]. replace (c <=? _) with true by lia. replace (c <? fst e) with false by lia. rewrite Eg. cbn [hd]. f_equal. lia.
    + pose proof (Later _ X). replace (c <=? _) with false by lia. now apply I1.
  - intros N. destruct (Z.leb_spec c (fst e + (Z.of_nat (length (snd e)) - 1))) as [Hle|Hle].
    + destruct (Z.ltb_spec c (fst e)); [reflexivity|]. exfalso. apply (N (g0 + (c - fst e))). apply in_or_app. left. apply Z1. lia.
    + apply I2. intros g X. apply (N g). apply in_or_app. now right.
Qed.

(** ** The table as bytes *)
Lemma flat_pack_len ws : Z.of_nat (length (flat_map pack16 ws)) = 2 * Z.of_nat (length ws).
Proof. induction ws as [|w ws IH]; [reflexivity|]. cbn [flat_map]. rewrite app_length, Nat2Z.inj_add, IH. cbn [length]. change (length (pack16 w)) with 2%nat. lia. Qed.
Lemma word_at ws i w : nth_error ws i = Some w -> u16 (flat_map pack16 ws) (2 * Z.of_nat i) = w mod 65536.
Proof.
  intros H. apply nth_error_split in H as (a & b & -> & L). rewrite flat_map_app. cbn [flat_map]. subst i.
  replace (2 * Z.of_nat (length a)) with (Z.of_nat (length (flat_map pack16 a)) + 0) by (rewrite flat_pack_len; lia). rewrite u16_app by lia. apply pack16_u16.
Qed.
Lemma nth_mid {A} (a b c : list A) i x : nth_error b i = Some x -> nth_error (a ++ b ++ c) (length a + i) = Some x.
Proof. intros H. rewrite nth_error_app2 by lia. replace (length a + i - length a)%nat with i by lia. rewrite nth_error_app1; [exact H|]. apply nth_error_Some. congruence. Qed.
Fixpoint find_pos (c : Z) (es : list Z) : option nat :=
  match es with [] => None | e :: r => if c <=? e then Some 0%nat else option_map S (find_pos c r) end.
Lemma find_segment_spec s ends c : forall es i, (forall j e, nth_error es j = Some e -> u16 s (ends + 2 * (i + Z.of_nat j)) = e) ->
  find_segment s ends (length es) i c = option_map (fun j => i + Z.of_nat j) (find_pos c es).
Proof.
  induction es as [|e es IH]; intros i H; [reflexivity|]. cbn [length find_segment find_pos]. rewrite <- (H 0%nat e eq_refl), Z.add_0_r. destruct (c <=? _); [cbn; f_equal; lia|].
  rewrite IH.
  - destruct (find_pos c es); cbn; [f_equal; lia|reflexivity].
  - intros j x Hj. rewrite <- (H (S j) x Hj). f_equal. lia.
Qed.
Definition delta_of (e : Z * list Z) : Z := hd 0 (snd e) - fst e.
Lemma pos_lookup : forall arr c, 0 <= c <= 65535 -> exists j st d, (j <= length arr)%nat /\
  find_pos c (map seg_end arr ++ [65535]) = Some j /\ nth_error (map fst arr ++ [65535]) j = Some st /\ nth_error (map delta_of arr ++ [1]) j = Some d /\
  (if c <? st then 0 else (c + d) mod 65536) = seg_lookup arr c.
Proof.
  induction arr as [|e arr IH]; intros c Hc.
  - exists 0%nat, 65535, 1. cbn [map app length find_pos nth_error seg_lookup]. replace (c <=? 65535) with true by lia. repeat split; auto.
    destruct (Z.ltb_spec c 65535); [reflexivity|]. replace c with 65535 by lia. reflexivity.
  - cbn [map app length find_pos seg_lookup]. destruct (c <=? seg_end e).
    + exists 0%nat, (fst e), (delta_of e). repeat split; auto. lia.
    + destruct (IH c Hc) as (j & st & d & Hj & F & N1 & N2 & R). exists (S j), st, d. rewrite F. cbn [option_map nth_error]. repeat split; auto. lia.
Qed.

Lemma pow2_total n : exists k, pow2_loop (Z.to_nat n) n 1 0 = k.
Proof. eauto. Qed.
Lemma segs_len b l : segs b l -> (length l <= length (flat_map pairs_of l))%nat.
Proof.
  induction 1 as [|b e r Hb Ho Hs IH]; [cbn; lia|]. cbn [flat_map length]. rewrite app_length. destruct Ho as (g & q & E & _). unfold pairs_of at 1. rewrite E. cbn [zip length]. lia.
Qed.
Lemma segs_deltas b l : segs b l -> flat_map (fun e : Z * list Z => match snd e with [] => [] | g :: _ => [- (fst e - g)] end) l = map delta_of l.
Proof.
  induction 1 as [|b e r Hb Ho Hs IH]; [reflexivity|]. cbn [flat_map map]. rewrite IH. unfold delta_of at 2.
  destruct Ho as (g & q & E & _). rewrite E. cbn [hd app]. f_equal. lia.
Qed.
Section Table.
  Variables (pairs : list (Z * Z)) (num : Z).
  Hypothesis HN : NoDup (map fst pairs).
  Hypothesis HC : Forall (fun p => 0 <= fst p <= 65535) pairs.
  Hypothesis HS : Z.of_nat (length pairs) < 32767.
  Let sorted := sort_by (fun a b : Z * Z => fst a <? fst b) pairs.
  Let st := fold_left cmap_step sorted {| m_id := 0; m_arr := []; m_pc := -2; m_ps := -1 |}.
  Let arr := m_arr st.

  Lemma table_inv : linv sorted st.
  Proof.
    unfold st. replace sorted with ([] ++ sorted) at 1 by reflexivity. apply loop_inv.
    - constructor; cbn; [reflexivity|constructor|left; auto].
    - unfold sorted. eapply Permutation_Forall; [symmetry; apply sort_by_perm|]. eapply Forall_impl; [|exact HC]. intros p Hp. cbn [m_pc] in *. cbn beta in Hp. lia.
    - now apply sort_pairs_sorted.
    - unfold sorted. eapply Permutation_Forall; [symmetry; apply sort_by_perm|]. eapply Forall_impl; [|exact HC]. intros p Hp. cbn [m_pc] in *. cbn beta in Hp. lia.
  Qed.
  Lemma arr_sorted : sort_by (fun a b : Z * list Z => fst a <? fst b) arr = arr.
  Proof. apply sort_sorted_id. eapply segs_sorted. apply (li_segs _ _ table_inv). Qed.
  Lemma arr_len : (length arr <= length pairs)%nat.
  Proof.
    destruct table_inv as [P S _]. fold arr in P, S. replace (length pairs) with (length sorted) by (apply Permutation_length; apply sort_by_perm). rewrite <- P. exact (segs_len _ _ S).
  Qed.
  Lemma deltas_eq : flat_map (fun e : Z * list Z => match snd e with [] => [] | g :: _ => [- (fst e - g)] end) arr = map delta_of arr.
  Proof.
    destruct table_inv as [_ S _]. fold arr in S. exact (segs_deltas _ _ S).
  Qed.
  Definition table_words (arr : list (Z * list Z)) (size sel : Z) : list Z :=
    let seg := Z.of_nat (length arr) + 1 in
    [0; 1; 3; 1; 0; 12; 4; 16 + 8 * seg + (num + 1); 0; seg * 2; size * 2; sel; seg * 2 - size * 2]
         ++ (map seg_end arr ++ [65535]) ++ [0]
         ++ (map fst arr ++ [65535])
         ++ (map delta_of arr ++ [1])
         ++ (map (fun _ => 0) arr ++ [0])
         ++ flat_map snd arr ++ [0].
  Lemma cmap_table_eq : exists k, 0 <= k /\ 2 ^ k <= Z.of_nat (length arr) + 1 < 2 ^ (k + 1) /\
    cmap_table pairs num = Ret (flat_map pack16 (table_words arr (2 ^ k) k)).
  Proof.
    unfold cmap_table. fold sorted. fold st. fold arr. rewrite arr_sorted, deltas_eq, map_length, Nat.eqb_refl. cbn [negb].
    destruct (pow2_loop_spec (Z.to_nat (Z.of_nat (length arr) + 1)) (Z.of_nat (length arr) + 1) 1 0 0) as (k & Ek & Hk & Hk2); try lia.
    { rewrite Z2Nat.id by lia. rewrite Z.mul_1_l. apply Z.pow_gt_lin_r; lia. }
    exists k. split; [exact Hk|]. split; [exact Hk2|]. rewrite Ek. unfold table_words. do 2 f_equal. rewrite <- !app_assoc. reflexivity.
  Qed.
  Lemma seg_bounds e : In e arr -> 0 <= fst e /\ seg_end e <= 65535.
  Proof.
    intros He. destruct table_inv as [P S _]. fold arr in P, S. pose proof (segs_start _ _ _ S He). split; [lia|].
    destruct (segs_ok_in _ _ _ S He) as (g & q & E & Hq).
    assert (X : In (seg_end e, g + (seg_end e - fst e)) sorted).
    { rewrite <- P. apply in_flat_map. exists e. split; [exact He|]. apply (in_zip _ _ g); [rewrite E; split; [reflexivity|exact Hq]|].
      split; [|reflexivity]. unfold seg_end. rewrite E. cbn [length]. lia. }
    eapply Permutation_in in X; [|apply sort_by_perm]. rewrite Forall_forall in HC. apply HC in X. cbn in X. lia.
  Qed.
  Lemma table_lookup table c : cmap_table pairs num = Ret table -> 0 <= c <= 65535 -> cmap_glyph table c = Some (seg_lookup arr c).
  Proof.
    intros E Hc. destruct cmap_table_eq as (k & _ & _ & E'). assert (ET : table = flat_map pack16 (table_words arr (2 ^ k) k)) by congruence. clear E E'.
    pose proof arr_len as AL. set (m := length arr) in *.
    set (W := table_words arr (2 ^ k) k) in *. set (s := flat_map pack16 W) in *. rewrite ET. clear ET.
    assert (R : forall i w, nth_error W i = Some w -> 0 <= w < 65536 -> u16 s (2 * Z.of_nat i) = w).
    { intros i w Hw Hb. unfold s. rewrite (word_at _ _ _ Hw). now apply Z.mod_small. }
    assert (R1 : u16 s 2 = 1) by exact (R 1%nat 1 eq_refl ltac:(lia)).
    assert (R2 : u16 s 4 = 3) by exact (R 2%nat 3 eq_refl ltac:(lia)).
    assert (R3 : u16 s 6 = 1) by exact (R 3%nat 1 eq_refl ltac:(lia)).
    assert (R4 : u32 s 8 = 12).
    { unfold u32. change (8 + 2) with 10. rewrite (R 4%nat 0 eq_refl ltac:(lia) : u16 s 8 = 0), (R 5%nat 12 eq_refl ltac:(lia) : u16 s 10 = 12). reflexivity. }
    assert (R6 : u16 s 12 = 4) by exact (R 6%nat 4 eq_refl ltac:(lia)).
    assert (R9 : u16 s 18 = (Z.of_nat m + 1) * 2) by (apply (R 9%nat); [reflexivity|lia]).
    unfold cmap_glyph. rewrite R1. change (Z.to_nat 1) with 1%nat. cbn [find_record]. change (4 + 2) with 6. change (4 + 4) with 8. rewrite R2, R3, R4. cbn [Z.eqb Pos.eqb andb]. rewrite R6. cbn [Z.eqb Pos.eqb]. f_equal.
    unfold lookup4. change (12 + 6) with 18. rewrite R9. rewrite Z.div_mul by lia. change (12 + 14) with 26. change (12 + 16) with 28.
    set (H := [0; 1; 3; 1; 0; 12; 4; 16 + 8 * (Z.of_nat m + 1) + (num + 1); 0; (Z.of_nat m + 1) * 2; 2 ^ k * 2; k; (Z.of_nat m + 1) * 2 - 2 ^ k * 2]).
    set (es := map seg_end arr ++ [65535]). set (ss := map fst arr ++ [65535]). set (ds := map delta_of arr ++ [1]). set (zs := map (fun _ : Z * list Z => 0) arr ++ [0]).
    set (gl := flat_map snd arr ++ [0]).
    assert (EW : W = H ++ es ++ [0] ++ ss ++ ds ++ zs ++ gl) by reflexivity.
    assert (Le : length es = S m) by (unfold es; rewrite app_length, map_length; cbn; lia).
    assert (Ls : length ss = S m) by (unfold ss; rewrite app_length, map_length; cbn; lia).
    assert (Ld : length ds = S m) by (unfold ds; rewrite app_length, map_length; cbn; lia).
    replace (Z.to_nat (Z.of_nat m + 1)) with (length es) by lia.
    rewrite (find_segment_spec s 26 c es 0).
    2:{ intros j e Hj. replace (26 + 2 * (0 + Z.of_nat j)) with (2 * Z.of_nat (length H + j)) by (cbn [H length]; lia).
        apply R; [rewrite EW; now apply nth_mid|]. apply nth_error_In in Hj. unfold es in Hj. apply in_app_or in Hj as [Hj|[<-|[]]]; [|lia].
        apply in_map_iff in Hj as (x & <- & Hx). pose proof (seg_bounds x Hx). pose proof (seg_ok_end x (segs_ok_in _ _ _ (li_segs _ _ table_inv) Hx)). lia. }
    destruct (pos_lookup arr c Hc) as (j & st0 & d & Hj & F & N1 & N2 & RR). fold es in F. rewrite F. cbn [option_map]. fold ss in N1. fold ds in N2.
    rewrite Z.add_0_l.
    assert (S1 : u16 s (28 + (Z.of_nat m + 1) * 2 + 2 * Z.of_nat j) = st0).
    { replace (28 + (Z.of_nat m + 1) * 2 + 2 * Z.of_nat j) with (2 * Z.of_nat (length (H ++ es ++ [0]) + j)) by (rewrite !app_length, Le; cbn [H length]; lia).
      apply R.
      - rewrite EW. replace (H ++ es ++ [0] ++ ss ++ ds ++ zs ++ gl) with ((H ++ es ++ [0]) ++ ss ++ ds ++ zs ++ gl) by now rewrite <- !app_assoc. now apply nth_mid.
      - apply nth_error_In in N1. unfold ss in N1. apply in_app_or in N1 as [N1|[<-|[]]]; [|lia].
        apply in_map_iff in N1 as (x & <- & Hx). pose proof (seg_bounds x Hx). pose proof (seg_ok_end x (segs_ok_in _ _ _ (li_segs _ _ table_inv) Hx)). lia. }
    assert (S2 : u16 s (28 + 2 * ((Z.of_nat m + 1) * 2) + 2 * Z.of_nat j) = d mod 65536).
    { replace (28 + 2 * ((Z.of_nat m + 1) * 2) + 2 * Z.of_nat j) with (2 * Z.of_nat (length (H ++ es ++ [0] ++ ss) + j)) by (rewrite !app_length, Le, Ls; cbn [H length]; lia).
      apply word_at. rewrite EW. replace (H ++ es ++ [0] ++ ss ++ ds ++ zs ++ gl) with ((H ++ es ++ [0] ++ ss) ++ ds ++ zs ++ gl) by now rewrite <- !app_assoc. now apply nth_mid. }
    assert (S3 : u16 s (28 + 3 * ((Z.of_nat m + 1) * 2) + 2 * Z.of_nat j) = 0).
    { replace (28 + 3 * ((Z.of_nat m + 1) * 2) + 2 * Z.of_nat j) with (2 * Z.of_nat (length (H ++ es ++ [0] ++ ss ++ ds) + j)) by (rewrite !app_length, Le, Ls, Ld; cbn [H length]; lia).
      apply R; [|lia]. rewrite EW. replace (H ++ es ++ [0] ++ ss ++ ds ++ zs ++ gl) with ((H ++ es ++ [0] ++ ss ++ ds) ++ zs ++ gl) by now rewrite <- !app_assoc. apply nth_mid.
      unfold zs. destruct (Nat.eq_dec j m) as [->|].
      - rewrite nth_error_app2; rewrite map_length; [|apply Nat.le_refl]. fold m. rewrite Nat.sub_diag. reflexivity.
      - rewrite nth_error_app1 by (rewrite map_length; fold m; lia). rewrite nth_error_map. destruct (nth_error arr j) eqn:E; [reflexivity|]. apply nth_error_None in E. fold m in E. lia. }
    rewrite S1, S2, S3. cbn [Z.eqb]. rewrite Z.add_mod_idemp_r by lia. exact RR.
  Qed.
End Table.

(** ** C40 *)
Theorem C40_character_map : forall (pairs : list (Z * Z)) (num : Z),
  NoDup (map fst pairs) -> Forall (fun p => 0 <= fst p <= 65535 /\ 0 <= snd p <= 65535) pairs -> Z.of_nat (length pairs) < 32767 ->
  exists table, cmap_table pairs num = Ret table /\
    forall c, 0 <= c <= 65535 ->
      (forall g, In (c, g) pairs -> cmap_glyph table c = Some g) /\
      ((forall g, ~ In (c, g) pairs) -> cmap_glyph table c = Some 0).
Proof.
  intros pairs num HN HF HS.
  assert (HC : Forall (fun p : Z * Z => 0 <= fst p <= 65535) pairs) by (eapply Forall_impl; [|exact HF]; intros ? [? ?]; assumption).
  destruct (cmap_table_eq pairs num HN HC) as (k & _ & _ & E). eexists. split; [exact E|]. intros c Hc.
  rewrite (table_lookup pairs num HN HC HS _ c E Hc).
  destruct (table_inv pairs HN HC) as [P S _]. destruct (seg_lookup_spec _ _ c S) as [L1 L2]. rewrite P in L1, L2.
  assert (PP : forall g, In (c, g) pairs <-> In (c, g) (sort_by (fun a b : Z * Z => fst a <? fst b) pairs)).
  { intros g. split; apply Permutation_in; [symmetry|]; apply sort_by_perm. }
  split.
  - intros g Hg. rewrite (L1 g) by now apply PP. f_equal. apply Z.mod_small. rewrite Forall_forall in HF. apply HF in Hg. cbn in Hg. lia.
  - intros H. rewrite L2; [reflexivity|]. intros g Hg. apply (H g). now apply PP.
Qed.
Print Assumptions C40_character_map.
(** the table does not depend on the order in which the map is visited *)
Theorem C40_deterministic : forall pairs pairs' num, Permutation pairs pairs' -> NoDup (map fst pairs) -> cmap_table pairs num = cmap_table pairs' num.
Proof.
  intros pairs pairs' num P N. unfold cmap_table. now rewrite (sort_canonical (@fst Z Z) Z.ltb zltb_strict pairs pairs' P N).
Qed.
Definition pairs_ex : list (Z * Z) := [(66, 2); (65, 1); (913, 9); (67, 3); (914, 4); (68, 7)].
Example C40_ex : exists t, cmap_table pairs_ex 10 = Ret t /\ map (cmap_glyph t) [65; 66; 67; 68; 69; 913; 914; 915; 65535; 0] = map Some [1; 2; 3; 7; 0; 9; 4; 0; 0; 0].
Proof. eexists. split; [vm_compute; reflexivity|]. vm_compute. reflexivity. Qed.

(** ** C58: the header of the subtable *)
Lemma zip_len st0 : forall l : list Z, length (pairs_of (st0, l)) = length l.
Proof. intros l. unfold pairs_of. cbn [fst snd]. revert st0. induction l as [|g l IH]; intros st0; [reflexivity|]. cbn [zip length]. now rewrite IH. Qed.
(** The header of the subtable: number of segments, searchRange twice the greatest
    power of two that is not more, entrySelector its logarithm, rangeShift the rest;
    the length field is [num] where the number of glyph entries, two bytes each, should be. *)
Theorem C58_search_partial : forall (pairs : list (Z * Z)) (num : Z), NoDup (map fst pairs) -> Forall (fun p => 0 <= fst p <= 65535) pairs -> Z.of_nat (length pairs) < 8000 ->
  exists table seg k, cmap_table pairs num = Ret table /\ 1 <= seg <= Z.of_nat (length pairs) + 1 /\ 0 <= k /\ 2 ^ k <= seg < 2 ^ (k + 1) /\
    u16 table 12 = 4 /\ u16 table 18 = 2 * seg /\ u16 table 20 = 2 * 2 ^ k /\ u16 table 22 = k /\ u16 table 24 = 2 * seg - 2 * 2 ^ k /\
    Z.of_nat (length table) - 12 = 16 + 8 * seg + 2 * (Z.of_nat (length pairs) + 1) /\
    u16 table 14 = (16 + 8 * seg + (num + 1)) mod 65536.
Proof.
  intros pairs num HN HC HS. destruct (cmap_table_eq pairs num HN HC) as (k & Hk & Hb & E). pose proof (arr_len pairs HN HC) as AL.
  set (sorted := sort_by (fun a b : Z * Z => fst a <? fst b) pairs) in *. set (arr := m_arr (fold_left cmap_step sorted {| m_id := 0; m_arr := []; m_pc := -2; m_ps := -1 |})) in *.
  set (W := table_words num arr (2 ^ k) k) in *. eexists _, (Z.of_nat (length arr) + 1), k. split; [exact E|]. split; [lia|]. split; [exact Hk|]. split; [exact Hb|].
  assert (R : forall i w, nth_error W i = Some w -> 0 <= w < 65536 -> u16 (flat_map pack16 W) (2 * Z.of_nat i) = w) by (intros i w Hw Hr; rewrite (word_at _ _ _ Hw); now apply Z.mod_small).
  assert (K : k < 65536) by (assert (k < 2 ^ k) by (apply Z.pow_gt_lin_r; lia); lia).
  split; [exact (R 6%nat 4 eq_refl ltac:(lia))|].
  split; [rewrite (R 9%nat ((Z.of_nat (length arr) + 1) * 2) eq_refl ltac:(lia) : u16 _ 18 = _); lia|].
  split; [rewrite (R 10%nat (2 ^ k * 2) eq_refl ltac:(lia) : u16 _ 20 = _); lia|].
  split; [exact (R 11%nat k eq_refl ltac:(lia))|].
  split; [rewrite (R 12%nat ((Z.of_nat (length arr) + 1) * 2 - 2 ^ k * 2) eq_refl ltac:(lia) : u16 _ 24 = _); lia|].
  split.
  - rewrite flat_pack_len. unfold W, table_words. rewrite !app_length, !map_length. cbn [length].
    assert (F : length (flat_map snd arr) = length pairs).
    { destruct (table_inv pairs HN HC) as [P _ _]. fold sorted in P. fold arr in P. replace (length pairs) with (length sorted) by (apply Permutation_length; apply sort_by_perm). rewrite <- P.
      clearbody arr. clear. induction arr as [|[s l] arr IH]; [reflexivity|]. cbn [flat_map]. rewrite !app_length, IH, zip_len. reflexivity. }
    rewrite F. lia.
  - exact (word_at W 7 _ eq_refl).
Qed.
Print Assumptions C58_search_partial.
(** So for a font of n characters, each with its own glyph, and the missing-glyph
    symbol, the length field is less than the length of the subtable. *)
Theorem C58_length_refuted : forall (pairs : list (Z * Z)), NoDup (map fst pairs) -> Forall (fun p => 0 <= fst p <= 65535) pairs -> 0 < Z.of_nat (length pairs) < 5000 ->
  exists table, cmap_table pairs (Z.of_nat (length pairs) + 1) = Ret table /\ u16 table 14 < Z.of_nat (length table) - 12.
Proof.
  intros pairs HN HC HS. destruct (C58_search_partial pairs (Z.of_nat (length pairs) + 1) HN HC ltac:(lia)) as (t & seg & k & E & Hs & _ & _ & _ & _ & _ & _ & _ & L & F).
  exists t. split; [exact E|]. rewrite F, L, Z.mod_small by lia. lia.
Qed.
Print Assumptions C58_length_refuted.
Example C58_case : NoDup (map fst pairs_ex) /\ Forall (fun p => 0 <= fst p <= 65535) pairs_ex /\ 0 < Z.of_nat (length pairs_ex) < 5000.
Proof. split; [repeat constructor; cbn; intuition discriminate|]. split; [repeat constructor; cbn; lia|cbn; lia]. Qed.
