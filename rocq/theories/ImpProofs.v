(** Imported pages: the numbers filled in. *)
From Verif Require Import Base TextModel Crypto DocModel DocSpec DocSort DocProofs DocWalk DocParts DocRes DocRes2 DocEnd DocXref DocLayout DocFile DocBack ResSpec ResProofs ResProofs2 ResProofs3 ResProofs4.
From Coq Require Import String Permutation.
Open Scope Z_scope.
Notation length := List.length.
Local Notation "a +++ b" := (List.app a b) (at level 60, right associativity, only parsing).

Lemma nth_set_nth {A} (l : list A) n x i : (n < length l)%nat -> nth_error (set_nth n x l) i = if Nat.eqb i n then Some x else nth_error l i.
Proof. revert n i. induction l as [|y l IH]; intros [|n] [|i] H; cbn in *; try lia; try reflexivity. apply IH. lia. Qed.
Lemma overwrite_spec src : forall pos data data', 0 <= pos -> overwrite pos src data = Some data' ->
  length data' = length data /\ forall i, nth_error data' i =
    if (pos <=? Z.of_nat i) && (Z.of_nat i <? pos + zlen src) then nth_error src (i - Z.to_nat pos) else nth_error data i.
Proof.
  induction src as [|c src IH]; intros pos data data' Hp H; cbn [overwrite] in H.
  - injection H as <-. split; [reflexivity|]. intros i. replace ((pos <=? Z.of_nat i) && (Z.of_nat i <? pos + zlen [])) with false; [reflexivity|].
    change (zlen []) with 0. lia.
  - destruct ((0 <=? pos) && (pos <? zlen data)) eqn:E; [|discriminate H]. apply IH in H; [|lia]. destruct H as (L & N). rewrite set_nth_length in L. split; [exact L|].
    intros i. rewrite N. rewrite zlen_cons. unfold zlen in E. rewrite nth_set_nth by lia.
    destruct ((pos + 1 <=? Z.of_nat i) && (Z.of_nat i <? pos + 1 + zlen src)) eqn:E1.
    + replace ((pos <=? Z.of_nat i) && (Z.of_nat i <? pos + (1 + zlen src))) with true by lia.
      replace (i - Z.to_nat pos)%nat with (S (i - Z.to_nat (pos + 1))) by lia. reflexivity.
    + destruct (Nat.eqb_spec i (Z.to_nat pos)) as [->|Ne].
      * pose proof (zlen_nonneg src). replace ((pos <=? Z.of_nat (Z.to_nat pos)) && (Z.of_nat (Z.to_nat pos) <? pos + (1 + zlen src))) with true by lia.
        rewrite Nat.sub_diag. reflexivity.
      * replace ((pos <=? Z.of_nat i) && (Z.of_nat i <? pos + (1 + zlen src))) with false by lia. reflexivity.
Qed.
Lemma pad40_field k : (length (dec k) <= 40)%nat -> field40 k (firstn 40 (pad40 (dec k))) /\ length (firstn 40 (pad40 (dec k))) = 40%nat.
Proof.
  intros H. assert (L : length (pad40 (dec k)) = 40%nat) by (unfold pad40; rewrite app_length, repeat_length; lia).
  rewrite firstn_all2 by lia. split; [|exact L]. split; [exact L|]. now exists (40 - length (dec k))%nat.
Qed.
Lemma nth_error_ext' {A} (l l' : list A) : (forall i, nth_error l i = nth_error l' i) -> l = l'.
Proof.
  revert l'. induction l as [|x l IH]; intros [|y l'] H; [reflexivity|discriminate (H O)|discriminate (H O)|].
  f_equal; [injection (H O) as ->; reflexivity|]. apply IH. intros i. exact (H (S i)).
Qed.
Lemma nth_skipn {A} (l : list A) p i : nth_error (skipn p l) i = nth_error l (p + i).
Proof. revert l. induction p as [|p IH]; intros [|x l]; cbn; auto. now destruct i. Qed.
Lemma nth_firstn {A} (l : list A) n i : (i < n)%nat -> nth_error (firstn n l) i = nth_error l i.
Proof. revert l i. induction n as [|n IH]; intros [|x l] [|i] H; cbn; auto; try lia. apply IH. lia. Qed.
Lemma slice_eq {A} (l l' : list A) p n : (forall i, (p <= i < p + n)%nat -> nth_error l i = nth_error l' (i - p)) -> length l' = n -> firstn n (skipn p l) = l'.
Proof.
  intros H L. apply nth_error_ext'. intros i. destruct (Nat.lt_ge_cases i n) as [Hi|Hi].
  - rewrite nth_firstn, nth_skipn, H by lia. f_equal. lia.
  - rewrite (proj2 (nth_error_None l' i)) by lia. apply nth_error_None. rewrite firstn_length. lia.
Qed.

Definition pair_dec (a b : Z * bytes) : {a = b} + {a <> b}.
Proof. decide equality; [apply (list_eq_dec Z.eq_dec)|apply Z.eq_dec]. Defined.
Lemma patch_spec objs off ps : forall b0 b, (forall p q, In p ps -> In q ps -> p = q \/ fst p + 40 <= fst q \/ fst q + 40 <= fst p) ->
  (forall pos h, In (pos, h) ps -> 0 <= pos /\ (length (dec (index_of h objs off)) <= 40)%nat) ->
  patch objs off ps b0 = Some b -> resolved (fun h => index_of h objs off) ps b0 b.
Proof.
  induction ps as [|[pos h] ps IH]; intros b0 b Ap Hr H; cbn [patch] in H.
  - injection H as <-. split; [reflexivity|]. split; [intros ? ? []|reflexivity].
  - destruct (overwrite pos _ b0) as [b1|] eqn:Eo; [|discriminate H].
    destruct (Hr pos h) as (Hp & Hl); [now left|]. destruct (pad40_field (index_of h objs off) Hl) as (Ff & Fl).
    set (f := firstn 40 (pad40 (dec (index_of h objs off)))) in *. clearbody f.
    apply overwrite_spec in Eo as (L1 & N1); [|exact Hp]. apply (IH b1 b) in H; [|intros; apply Ap; now right|intros; apply Hr; now right].
    destruct H as (L2 & R2 & K2). unfold zlen in N1. rewrite Fl in N1. split; [lia|]. split.
    + intros pos' h' [[= <- <-]|Hin]; [|now apply R2].
      destruct (in_dec pair_dec (pos, h) ps) as [Hin|Hout]; [now apply R2|].
      assert (E : firstn 40 (skipn (Z.to_nat pos) b) = f).
      { apply slice_eq; [|exact Fl]. intros i Hi. rewrite K2.
        - rewrite N1. replace ((pos <=? Z.of_nat i) && (Z.of_nat i <? pos + Z.of_nat 40)) with true by lia. reflexivity.
        - intros pos' h' Hin' Hc. destruct (Ap (pos, h) (pos', h')) as [X|[X|X]]; [now left|now right|injection X as <- <-; contradiction|cbn in X; lia|cbn in X; lia]. }
      now rewrite E.
    + intros i Hi. rewrite K2 by (intros pos' h' Hin'; apply (Hi pos' h'); now right). rewrite N1.
      specialize (Hi pos h ltac:(now left)). replace ((pos <=? Z.of_nat i) && (Z.of_nat i <? pos + Z.of_nat 40)) with false by lia. reflexivity.
Qed.
Lemma index_of_spec (objs : list (bytes * (bytes * list (Z * bytes)))) off : forall i e, NoDup (map fst objs) -> nth_error objs i = Some e -> index_of (fst e) objs off = off + Z.of_nat i.
Proof.
  revert off. induction objs as [|[k v] objs IH]; intros off [|i] e Nd H; cbn in H; try discriminate.
  - injection H as <-. cbn [index_of fst]. rewrite beqb_refl. lia.
  - cbn [map fst] in Nd. apply NoDup_cons_iff in Nd as [Nk Nd]. cbn [index_of]. destruct (beqb (fst e) k) eqn:E.
    + apply beqb_eq in E. exfalso. apply Nk. rewrite <- E. apply in_map. now apply nth_error_In in H.
    + rewrite (IH (off + 1) i e Nd H). lia.
Qed.

Section Stage.
  Context {E : env} (d : doc (e_num E)).
  Hypothesis W : forall site A (l : list A), Permutation (e_shuffle E site A l) l.
  Lemma imp_fold objs off : forall l v, cipok v -> (forall e, In e l -> imported_closed e) -> ok (fold_left (imp_step (E := E) objs off) l v) ->
    exists os, adds v (fold_left (imp_step (E := E) objs off) l v) os /\
      forall i e, nth_error l i = Some e -> exists x, patch objs off (e_shuffle E 11 _ (snd (snd e))) (fst (snd e)) = Some x /\ In (w_n v + 1 + Z.of_nat i, x +++ nl) os.
  Proof.
    induction l as [|e l IH]; intros v Hv Hl Hk; cbn [fold_left] in *.
    - exists []. split; [apply adds_refl|]. intros [|i] e; discriminate.
    - assert (Hok : ok (imp_step (E := E) objs off v e)) by (eapply ok_fold; [|exact Hk]; intros; eapply imp_step_ok; eauto).
      assert (S1 : exists x, patch objs off (e_shuffle E 11 _ (snd (snd e))) (fst (snd e)) = Some x /\ adds v (imp_step (E := E) objs off v e) [(w_n v + 1, x +++ nl)]).
      { unfold imp_step in *. destruct (Hl e ltac:(now left)) as (body & ws & Eb & Fw & Fp).
        destruct (patch objs off _ (fst (snd e))) as [x|] eqn:Ep; [|apply ok_out, newobj_ok, ok_panic in Hok; easy].
        exists x. split; [reflexivity|]. rewrite Eb in Ep. apply patch_tail in Ep.
        - destruct Ep as (b' & ->). apply imported_obj. exists b', ws. split; [|exact Fw]. cbn [snd]. rewrite <- ?app_assoc. now rewrite (lf_comm ws Fw).
        - rewrite Forall_forall in *. intros y Hy. apply Fp. eapply Permutation_in; [apply W|exact Hy]. }
      destruct S1 as (x & Px & A). destruct (IH (imp_step (E := E) objs off v e)) as (os & A2 & H2); [apply (ad_cip _ _ _ A Hv)|intros; apply Hl; now right|exact Hk|].
      exists ([(w_n v + 1, x +++ nl)] +++ os). split; [eapply adds_trans; eauto|]. intros [|i] e' Hi; cbn in Hi.
      + injection Hi as <-. exists x. split; [exact Px|]. left. f_equal. lia.
      + destruct (H2 i e' Hi) as (x' & P' & I'). exists x'. split; [exact P'|]. right. rewrite (ad_n _ _ _ A) in I'. change (zlen [_]) with 1 in I'.
        replace (w_n v + 1 + Z.of_nat (S i)) with (w_n v + 1 + 1 + Z.of_nat i) by lia. exact I'.
  Qed.
  Lemma imp_tab_find (objs : list (bytes * (bytes * list (Z * bytes)))) off : forall j w i e, NoDup (map fst objs) -> nth_error objs i = Some e ->
    find_slot (SImp (fst e)) (w_tab (iteri (fun j e w => set_tab ((SImp (fst e), off + j) :: w_tab w) w) j objs w)) = Some (off + j + Z.of_nat i).
  Proof.
    assert (Keep : forall (l : list (bytes * (bytes * list (Z * bytes)))) h k j w, ~ In h (map fst l) -> find_slot (SImp h) (w_tab w) = Some k ->
      find_slot (SImp h) (w_tab (iteri (fun j e w => set_tab ((SImp (fst e), off + j) :: w_tab w) w) j l w)) = Some k).
    { induction l as [|x l IH]; intros h k j w N F; [exact F|]. cbn [iteri]. apply IH; [intros X; apply N; now right|].
      cbn [w_tab set_tab find_slot]. destruct (slot_eqb (SImp h) (SImp (fst x))) eqn:Q; [|exact F].
      apply slot_eqb_eq in Q. injection Q as ->. destruct N. now left. }
    induction objs as [|x objs IH]; intros j w [|i] e Nd H; cbn in H; try discriminate; cbn [map] in Nd; apply NoDup_cons_iff in Nd as [N1 N2]; cbn [iteri].
    - injection H as <-. apply Keep; [exact N1|]. cbn [w_tab set_tab find_slot]. rewrite (proj2 (slot_eqb_eq _ _) eq_refl). f_equal. lia.
    - rewrite (IH (j + 1) _ i e N2 H). f_equal. lia.
  Qed.
  Lemma imp_fold_tab objs off l : forall v, w_tab (fold_left (imp_step (E := E) objs off) l v) = w_tab v.
  Proof.
    induction l as [|e l IH]; intros v; [reflexivity|]. cbn [fold_left]. rewrite IH. unfold imp_step. destruct (patch _ _ _ _); now rewrite tab_out, newobj_tab.
  Qed.
  Lemma put_imported_exact w : (forall e, In e (d_impobjs d) -> imported_closed e) -> NoDup (map fst (d_impobjs d)) -> cipok w -> ok (put_imported d w) ->
    exists os, adds w (put_imported d w) os /\ forall e, In e (d_impobjs d) ->
      let objs := e_shuffle E 10 _ (d_impobjs d) in let off := w_n w + 1 in let k := index_of (fst e) objs off in
      find_slot (SImp (fst e)) (w_tab (put_imported d w)) = Some k /\
      exists x, patch objs off (e_shuffle E 11 _ (snd (snd e))) (fst (snd e)) = Some x /\ In (k, x +++ nl) os.
  Proof.
    intros Hcl Nd Hc Hok. rewrite put_imported_unfold in *. cbv zeta in *. set (objs := e_shuffle E 10 _ (d_impobjs d)) in *.
    assert (Pm : Permutation objs (d_impobjs d)) by apply W.
    assert (Nd' : NoDup (map fst objs)) by (eapply Permutation_NoDup; [apply Permutation_map, Permutation_sym, Pm|exact Nd]).
    set (v := iteri _ 0 objs w) in *. assert (Ev : exists ts, v = set_tab (ts +++ w_tab w) w /\ Forall (fun e => w_n w + 1 + 0 <= snd e < w_n w + 1 + 0 + zlen objs) ts) by apply imp_tab.
    destruct Ev as (ts & Ev & Ft). destruct (imp_fold objs (w_n w + 1) objs v) as (os & A & H).
    - rewrite Ev. exact Hc.
    - intros e He. apply Hcl. eapply Permutation_in; [exact Pm|exact He].
    - exact Hok.
    - exists os. split.
      + rewrite Ev in *. eapply adds_pretab; [|exact A]. intros _ Hn. pose proof (ad_n _ _ _ A) as X. change (w_n (set_tab (ts +++ w_tab w) w)) with (w_n w) in X.
        assert (L : zlen os = zlen objs).
        { pose proof (put_imported_adds d w (W 11 _)) as Y. rewrite put_imported_unfold in Y. cbv zeta in Y. fold objs in Y. fold v in Y. rewrite Ev in Y.
          destruct Y as (os' & A' & L'); [intros e He; apply Hcl; eapply Permutation_in; [exact Pm|exact He]|exact Hc|exact Hok|].
          pose proof (ad_n _ _ _ A') as X'. lia. }
        eapply Forall_impl; [|exact Ft]. cbn. intros. lia.
      + intros e He. apply (Permutation_in _ (Permutation_sym Pm)) in He. apply In_nth_error in He as (i & Hi).
        rewrite (index_of_spec objs (w_n w + 1) i e Nd' Hi). split.
        * rewrite imp_fold_tab. unfold v. rewrite (imp_tab_find objs (w_n w + 1) 0 w i e Nd' Hi). f_equal. lia.
        * destruct (H i e Hi) as (x & Px & Ix). exists x. split; [exact Px|]. rewrite Ev in Ix. exact Ix.
  Qed.
End Stage.
