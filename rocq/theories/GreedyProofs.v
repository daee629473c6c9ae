(** The greedy relation determines the lines: at most one result per text. *)
From Verif Require Import Base LineSpec LineProofs.

Section Det.
  Variable sep : Z -> bool.
  Variable wd : Z -> Z.
  Variable wmax : Z.

  Definition okp (q : list Z) : Prop := no_nl q /\ fits wd wmax q.
  Definition badp (p : list Z) : Prop :=
    exists q c, p = q ++ [c] /\ okp q /\ (c = 10 \/ wmax < width wd p).

  Lemma bad_not_ok p : badp p -> ~ okp p.
  Proof.
    intros (q & c & -> & _ & [->|H]) [Hn Hf].
    - apply Hn. apply in_or_app. right. now left.
    - specialize (Hf (q ++ [c]) []). rewrite app_nil_r in Hf.
      assert (q ++ [c] <> []) by (destruct q; discriminate). specialize (Hf eq_refl H0). lia.
  Qed.

  Lemma ok_prefix p q : okp (p ++ q) -> okp p.
  Proof. intros [Hn Hf]. split; [now apply no_nl_app in Hn|now apply fits_prefix in Hf]. Qed.

  Lemma bad_prefix_eq p x p' : badp p -> badp p' -> p' = p ++ x -> x = [].
  Proof.
    intros Hp (q' & c' & -> & Hq' & _) E. destruct x as [|y x _] using rev_ind; [reflexivity|].
    rewrite app_assoc in E. apply app_inj_tail in E as [E _]. subst q'.
    exfalso. apply (bad_not_ok p Hp). now apply ok_prefix in Hq'.
  Qed.

  Lemma bad_unique p r p' r' : badp p -> badp p' -> p ++ r = p' ++ r' -> p = p' /\ r = r'.
  Proof.
    intros Hp Hp' E. destruct (app_eq_app_cases _ _ _ _ E) as [(x & E1 & E2)|(x & E1 & E2)].
    - assert (x = []) by (eapply bad_prefix_eq; [exact Hp'|exact Hp|exact E1]). subst x.
      rewrite app_nil_r in E1. cbn in E2. now subst.
    - assert (x = []) by (eapply bad_prefix_eq; [exact Hp|exact Hp'|exact E1]). subst x.
      rewrite app_nil_r in E1. cbn in E2. now subst.
  Qed.

  Lemma ok_no_bad t p r : okp t -> badp p -> t <> p ++ r.
  Proof. intros Ht Hp ->. apply (bad_not_ok p Hp). now apply ok_prefix in Ht. Qed.

  Lemma bad_newline line : no_nl line -> fits wd wmax line -> badp (line ++ [10]).
  Proof. intros. exists line, 10. repeat split; auto. Qed.
  Lemma bad_sep line c word :
    no_nl (line ++ c :: word) -> fits wd wmax (removelast (line ++ c :: word)) ->
    wmax < width wd (line ++ c :: word) -> badp (line ++ c :: word).
  Proof.
    intros Hn Hf Ho. destruct (exists_last (l := line ++ c :: word)) as (q & d & E); [destruct line; discriminate|].
    exists q, d. rewrite E in *. rewrite removelast_snoc in Hf. repeat split; auto.
    now apply no_nl_app in Hn.
  Qed.
  Lemma bad_word line d : no_nl (line ++ [d]) -> fits wd wmax line -> wmax < width wd (line ++ [d]) -> badp (line ++ [d]).
  Proof. intros Hn Hf Ho. exists line, d. repeat split; auto. now apply no_nl_app in Hn. Qed.
  Lemma bad_char d : d <> 10 -> wmax < wd d -> badp [d].
  Proof.
    intros Hn Ho. exists [], d. repeat split; auto.
    - intros [].
    - apply fits_nil.
    - right. unfold width. simpl. lia.
  Qed.

  Lemma sep_split_unique line c word line' c' word' :
    sep c = true -> no_sep sep word -> sep c' = true -> no_sep sep word' ->
    line ++ c :: word = line' ++ c' :: word' -> line = line' /\ c = c' /\ word = word'.
  Proof.
    intros Hc Hw Hc' Hw' E. destruct (app_eq_app_cases _ _ _ _ E) as [(x & E1 & E2)|(x & E1 & E2)].
    - destruct x as [|y x].
      + rewrite app_nil_r in E1. cbn in E2. injection E2 as -> ->. auto.
      + injection E2 as -> ->. unfold no_sep in Hw'. apply Forall_app in Hw' as [_ Hw'].
        inversion Hw'. congruence.
    - destruct x as [|y x].
      + rewrite app_nil_r in E1. cbn in E2. injection E2 as -> ->. auto.
      + injection E2 as -> ->. unfold no_sep in Hw. apply Forall_app in Hw as [_ Hw].
        inversion Hw. congruence.
  Qed.

  (** One step: how a text with a bad prefix is broken. *)
  Inductive first_break : list Z -> list Z -> list Z -> Prop :=
  | fb_newline line rest : no_nl line -> fits wd wmax line ->
      first_break (line ++ 10 :: rest) line rest
  | fb_sep line c word rest : sep c = true -> no_sep sep word -> no_nl (line ++ c :: word) ->
      fits wd wmax (removelast (line ++ c :: word)) -> wmax < width wd (line ++ c :: word) ->
      first_break (line ++ c :: word ++ rest) line (word ++ rest)
  | fb_word line d rest : line <> [] -> no_sep sep (line ++ [d]) -> no_nl (line ++ [d]) ->
      fits wd wmax line -> wmax < width wd (line ++ [d]) ->
      first_break (line ++ d :: rest) line (d :: rest)
  | fb_char d rest : sep d = false -> d <> 10 -> wmax < wd d ->
      first_break (d :: rest) [d] rest.

  (** the bad prefix and how the line is cut from it *)
  Inductive cut : list Z -> list Z -> Prop :=
  | c_newline line : no_nl line -> cut (line ++ [10]) line
  | c_sep line c word : sep c = true -> no_sep sep word -> no_nl (line ++ c :: word) -> cut (line ++ c :: word) line
  | c_word line d : line <> [] -> no_sep sep (line ++ [d]) -> no_nl (line ++ [d]) -> cut (line ++ [d]) line
  | c_char d : sep d = false -> d <> 10 -> cut [d] [d].

  Lemma in_snoc_nl q : ~ no_nl (q ++ [10]).
  Proof. intros H. apply H. apply in_or_app. right. now left. Qed.

  Lemma first_break_bad t line rest : first_break t line rest ->
    exists p r, t = p ++ r /\ badp p /\ cut p line
      /\ rest = (if (length p =? length line)%nat then [] else
                 if existsb sep p && negb (last p 0 =? 10) then skipn (S (length line)) p
                 else if (last p 0 =? 10) then [] else skipn (length line) p) ++ r.
  Proof.
    intros H.
    assert (Hex : forall q, no_sep sep q -> existsb sep q = false).
    { intros q Hq. unfold no_sep in Hq. induction Hq as [|x q Hx Hq IH]; [reflexivity|]. cbn. now rewrite Hx. }
    destruct H as [line rest Hn Hf|line c word rest Hc Hw Hn Hf Ho|line d rest Hne Hs Hn Hf Ho|d rest Hs Hn Ho].
    - exists (line ++ [10]), rest. split; [now rewrite <- app_assoc|]. split; [now apply bad_newline|].
      split; [now constructor|]. rewrite app_length. cbn [length].
      replace (length line + 1 =? length line)%nat with false by lia.
      rewrite last_last. cbn. now rewrite andb_false_r.
    - exists (line ++ c :: word), rest. split; [now rewrite <- app_assoc|]. split; [now apply bad_sep|].
      split; [now constructor|]. rewrite app_length. cbn [length].
      replace (length line + S (length word) =? length line)%nat with false by lia.
      rewrite existsb_app. cbn [existsb]. rewrite Hc, orb_true_r.
      assert (Hl : last (line ++ c :: word) 0 <> 10).
      { intros El. apply Hn. rewrite <- El. destruct (exists_last (l := line ++ c :: word)) as (q & d & E); [destruct line; discriminate|].
        rewrite E, last_last. apply in_or_app. right. now left. }
      replace (last (line ++ c :: word) 0 =? 10) with false by lia. cbn [negb andb].
      f_equal. replace (S (length line)) with (length (line ++ [c])) by (rewrite app_length; simpl; lia).
      change (c :: word) with ([c] ++ word). rewrite app_assoc, skipn_app, skipn_all, Nat.sub_diag. reflexivity.
    - exists (line ++ [d]), rest. split; [now rewrite <- app_assoc|]. split; [now apply bad_word|].
      split; [now constructor|]. rewrite app_length. cbn [length].
      replace (length line + 1 =? length line)%nat with false by lia.
      rewrite Hex by exact Hs. cbn [andb]. rewrite last_last.
      assert (d <> 10) by (intros ->; now apply in_snoc_nl in Hn).
      replace (d =? 10) with false by lia. rewrite skipn_app, skipn_all, Nat.sub_diag. reflexivity.
    - exists [d], rest. split; [reflexivity|]. split; [now apply bad_char|]. split; [now constructor|]. reflexivity.
  Qed.

  Lemma cut_unique_aux p l p' l' : cut p l -> cut p' l' -> p' = p -> l = l'.
  Proof.
    assert (Habs : forall line c word q d, sep c = true -> no_sep sep (q ++ [d]) -> line ++ c :: word = q ++ [d] -> False).
    { intros line c word q d Hc Hns E. rewrite <- E in Hns. unfold no_sep in Hns. apply Forall_app in Hns as [_ Hns].
      inversion Hns. congruence. }
    intros H H'. destruct H as [line Hn|line c word Hc Hw Hn|line d Hne Hs Hn|d Hs Hn];
      destruct H' as [line' Hn'|line' c' word' Hc' Hw' Hn'|line' d' Hne' Hs' Hn'|d' Hs' Hn']; intros Ep.
    - apply app_inj_tail in Ep as [-> _]. reflexivity.
    - exfalso. rewrite Ep in Hn'. now apply in_snoc_nl in Hn'.
    - exfalso. rewrite Ep in Hn'. now apply in_snoc_nl in Hn'.
    - destruct line as [|y [|? ?]]; try discriminate. injection Ep as ->. now elim Hn'.
    - exfalso. rewrite <- Ep in Hn. now apply in_snoc_nl in Hn.
    - symmetry. now destruct (sep_split_unique _ _ _ _ _ _ Hc' Hw' Hc Hw Ep).
    - exfalso. exact (Habs line c word line' d' Hc Hs' (eq_sym Ep)).
    - exfalso. exact (Habs line c word [] d' Hc (Forall_cons _ Hs' (Forall_nil _)) (eq_sym Ep)).
    - exfalso. rewrite <- Ep in Hn. now apply in_snoc_nl in Hn.
    - exfalso. eapply Habs; [exact Hc'|exact Hs|exact Ep].
    - apply app_inj_tail in Ep as [-> _]. reflexivity.
    - destruct line as [|y [|? ?]]; try discriminate. now elim Hne.
    - destruct line' as [|y [|? ?]]; try discriminate. injection Ep as Ep. exfalso. now apply Hn.
    - exfalso. apply (Habs line' c' word' [] d Hc'); [now constructor|exact Ep].
    - destruct line' as [|y [|? ?]]; try discriminate. now elim Hne'.
    - exact (eq_sym Ep).
  Qed.

  Lemma cut_unique p l l' : cut p l -> cut p l' -> l = l'.
  Proof. intros H H'. eapply cut_unique_aux; eauto. Qed.

  Lemma first_break_det t l r l' r' : first_break t l r -> first_break t l' r' -> l = l' /\ r = r'.
  Proof.
    intros H H'. apply first_break_bad in H as (p & x & Et & Hb & Hc & Er).
    apply first_break_bad in H' as (p' & x' & Et' & Hb' & Hc' & Er').
    assert (E : p ++ x = p' ++ x') by congruence.
    destruct (bad_unique _ _ _ _ Hb Hb' E) as [<- <-].
    assert (l = l') by (eapply cut_unique; eauto). subst l'. split; [reflexivity|]. congruence.
  Qed.

  Lemma greedy_inv t ls z : greedy sep wd wmax t ls z ->
    (okp t /\ ls = [] /\ z = t) \/
    (exists l r ls', first_break t l r /\ ls = l :: ls' /\ greedy sep wd wmax r ls' z).
  Proof.
    destruct 1 as [t Hn Hf|line rest ls z Hn Hf Hg|line c word rest ls z Hc Hw Hn Hf Ho Hg
                   |line d rest ls z Hne Hs Hn Hf Ho Hg|d rest ls z Hs Hn Ho Hg].
    - left. repeat split; auto.
    - right. exists line, rest, ls. split; [now constructor|auto].
    - right. exists line, (word ++ rest), ls. split; [now constructor|auto].
    - right. exists line, (d :: rest), ls. split; [now constructor|auto].
    - right. exists [d], rest, ls. split; [now constructor|auto].
  Qed.

  Lemma greedy_det t ls z ls' z' :
    greedy sep wd wmax t ls z -> greedy sep wd wmax t ls' z' -> ls = ls' /\ z = z'.
  Proof.
    intros H. apply greedy_inv in H as H0. revert t z ls' z' H H0.
    induction ls as [|l ls IH]; intros t z ls' z' H H0 H'.
    - destruct H0 as [(Ht & _ & ->)|(l0 & r0 & ls0 & _ & E & _)]; [|discriminate].
      apply greedy_inv in H' as [(_ & -> & ->)|(l & r & ls0 & Hb & _)]; [auto|].
      apply first_break_bad in Hb as (p & x & Et & Hb & _). exfalso. eapply ok_no_bad; eauto.
    - destruct H0 as [(_ & E & _)|(l0 & r0 & ls0 & Hb & E & Hg)]; [discriminate|]. injection E as <- <-.
      apply greedy_inv in H' as [(Ht & -> & ->)|(l' & r' & ls0' & Hb' & -> & Hg')].
      + apply first_break_bad in Hb as (p & x & Et & Hb & _). exfalso. eapply ok_no_bad; eauto.
      + destruct (first_break_det _ _ _ _ _ Hb Hb') as [-> ->].
        destruct (IH r' z ls0' z' Hg (greedy_inv _ _ _ Hg) Hg') as [-> ->]. auto.
  Qed.
End Det.

(** greedy only looks at the separators and widths of the characters present *)
Lemma width_ext wd wd' p : (forall c, In c p -> wd c = wd' c) -> width wd p = width wd' p.
Proof.
  intros H. unfold width. induction p as [|x p IH]; [reflexivity|]. simpl. rewrite IH, (H x); auto with datatypes.
Qed.

Lemma no_sep_ext sep sep' p : (forall c, In c p -> sep c = sep' c) -> no_sep sep p -> no_sep sep' p.
Proof.
  intros H Hp. unfold no_sep in *. rewrite Forall_forall in *. intros c Hc. rewrite <- H by exact Hc. now apply Hp.
Qed.

Lemma greedy_ext sep sep' wd wd' wmax t ls z :
  (forall c, In c t -> c <> 10 -> sep c = sep' c /\ wd c = wd' c) ->
  greedy sep wd wmax t ls z -> greedy sep' wd' wmax t ls z.
Proof.
  intros H Hg. revert H. induction Hg as [t Hn Hf|line rest ls z Hn Hf Hg IH|line c word rest ls z Hc Hw Hn Hf Ho Hg IH
                   |line d rest ls z Hne Hs Hn Hf Ho Hg IH|d rest ls z Hs Hn Ho Hg IH]; intros H.
  - apply g_last; [exact Hn|]. eapply fits_ext; [|exact Hf]. intros c Hin. apply H; [exact Hin|].
    intros ->. now apply Hn.
  - apply g_newline; [exact Hn| |apply IH; intros c Hin; apply H; apply in_or_app; right; now right].
    eapply fits_ext; [|exact Hf]. intros c Hin. apply H; [apply in_or_app; now left|]. intros ->. now apply Hn.
  - assert (Hall : forall x, In x (line ++ c :: word) -> sep x = sep' x /\ wd x = wd' x).
    { intros x Hx. apply H; [|intros ->; now apply Hn].
      apply in_app_or in Hx as [Hx|Hx]; apply in_or_app; [now left|right].
      destruct Hx as [Hx|Hx]; [now left|right]. apply in_or_app. now left. }
    apply g_sep; auto.
    + rewrite <- Hc. symmetry. apply Hall. apply in_or_app. right. now left.
    + eapply no_sep_ext; [|exact Hw]. intros x Hx. apply Hall. apply in_or_app. right. now right.
    + eapply fits_ext; [|exact Hf]. intros x Hx. apply Hall.
      destruct (exists_last (l := line ++ c :: word)) as (q & d & E); [destruct line; discriminate|].
      rewrite E in *. rewrite removelast_snoc in Hx. apply in_or_app. now left.
    + rewrite <- (width_ext wd wd'); [exact Ho|]. intros x Hx. now apply Hall.
    + apply IH. intros x Hx. apply H. apply in_or_app. right. now right.
  - assert (Hall : forall x, In x (line ++ [d]) -> sep x = sep' x /\ wd x = wd' x).
    { intros x Hx. apply H; [|intros ->; now apply Hn].
      apply in_app_or in Hx as [Hx|[Hx|[]]]; apply in_or_app; [now left|right; now left]. }
    apply g_word; auto.
    + eapply no_sep_ext; [|exact Hs]. intros x Hx. now apply Hall.
    + eapply fits_ext; [|exact Hf]. intros x Hx. apply Hall. apply in_or_app. now left.
    + rewrite <- (width_ext wd wd'); [exact Ho|]. intros x Hx. now apply Hall.
    + apply IH. intros x Hx. apply H. apply in_or_app. now right.
  - destruct (H d (or_introl eq_refl) Hn) as [H1 H2].
    apply g_char; [congruence|exact Hn|lia|]. apply IH. intros x Hx. apply H. now right.
Qed.
