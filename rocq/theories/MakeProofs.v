(** Proofs about making font definitions: lines, words, encodings, differences, metric files. *)
From Verif Require Import Base DocModel TtfSpec TtfModel TtfProofs TtfCmap CutSpec CutModel CutProofs CutCmap CutRead CutExample FontSpec FontModel FontProofs FontProps MakeSpec MakeModel.
From Coq Require Import String.
Open Scope Z_scope.
Notation length := List.length.
Notation concat := List.concat.

(** ** lines *)
Lemma drop_cr_plain t : (forall c, In c t -> c <> 13) -> drop_cr (rev t) = t.
Proof.
  intros H. unfold drop_cr. destruct (rev t) as [|c r] eqn:E; [apply (f_equal (@rev Z)) in E; rewrite rev_involutive in E; now rewrite E|].
  assert (C : c <> 13) by (apply H; apply in_rev; rewrite E; now left). replace (c =? 13) with false by lia. rewrite <- E. apply rev_involutive.
Qed.
Lemma lines_one t cur s : (forall c, In c t -> c <> 10) -> lines_from cur (t ++ 10 :: s) = drop_cr (rev t ++ cur) :: lines_from [] s.
Proof.
  revert cur. induction t as [|c t IH]; intros cur H; [reflexivity|]. cbn [app lines_from]. replace (c =? 10) with false by (specialize (H c (or_introl eq_refl)); lia).
  rewrite IH by (intros x Hx; apply H; now right). cbn [rev]. now rewrite <- app_assoc.
Qed.
Lemma lines_ok {A} (text : A -> bytes) (l : list A) : Forall (fun a => plain_text (text a)) l -> lines_from [] (flat_map (fun a => text a ++ [10]) l) = map text l.
Proof.
  intros H. induction H as [|a l Ha H IH]; [reflexivity|]. cbn [flat_map map]. rewrite <- app_assoc. change ([10] ++ ?x) with (10 :: x). rewrite lines_one by (intros c Hc; apply Ha, Hc).
  rewrite app_nil_r, drop_cr_plain, IH; [reflexivity|]. intros c Hc. apply Ha, Hc.
Qed.

(** ** encodings *)
Lemma set_nth_map {A} (f : Z -> A) n : forall a c x, a <= c -> set_nth (map f (range a n)) (Z.to_nat (c - a)) x = map (fun j => if c =? j then x else f j) (range a n).
Proof.
  induction n as [|n IH]; intros a c x Hc; [destruct (Z.to_nat _); reflexivity|]. rewrite range_cons. cbn [map]. destruct (Z.eqb_spec c a) as [->|N].
  - rewrite Z.sub_diag. cbn [Z.to_nat set_nth]. f_equal. apply map_ext_in. intros j Hj. apply in_range in Hj. replace (a =? j) with false by lia. reflexivity.
  - replace (Z.to_nat (c - a)) with (S (Z.to_nat (c - (a + 1)))) by lia. cbn [set_nth]. f_equal. apply IH. lia.
Qed.
Lemma load_lines_ok scan ls : sound_lines scan ls -> forall f, load_lines scan (map fst ls) (map f (range 0 256)) =
  Ret (Some (map (fun j => fold_left (fun e (l : line) => let '(c, u, n) := snd l in if c =? j then (n, u) else e) ls (f j)) (range 0 256))).
Proof.
  intros H. induction H as [|[t [[c u] n]] ls (_ & Hs & Hc) H IH]; intros f; [reflexivity|]. cbn [map fst snd load_lines fold_left] in *. rewrite Hs.
  replace (c <? 256) with true by lia. replace (c <? 0) with false by lia. pose proof (set_nth_map f 256 0 c (n, u) ltac:(lia)) as X. rewrite Z.sub_0_r in X. rewrite X. apply IH.
Qed.
Lemma repeat_map {A} (x : A) n a : repeat x n = map (fun _ => x) (range a n).
Proof. revert a. induction n as [|n IH]; intros a; [reflexivity|]. rewrite range_cons. cbn. f_equal. apply IH. Qed.
Lemma load_map_ok scan ls : sound_lines scan ls -> load_map scan (Some (map_text ls)) = Ret (Some (map (encoded ls) (range 0 256))).
Proof.
  intros H. unfold load_map, map_text. rewrite lines_ok by (eapply Forall_impl; [|exact H]; intros l (X & _); exact X). rewrite (repeat_map _ _ 0). now rewrite load_lines_ok.
Qed.

(** ** differences *)
Lemma words_one w cur s : (forall c, In c w -> c <> 32) -> w ++ cur <> [] -> words_from cur (w ++ 32 :: s) = (rev cur ++ w) :: words_from [] s.
Proof.
  revert cur. induction w as [|c w IH]; intros cur H N.
  - cbn [app words_from]. rewrite Z.eqb_refl, app_nil_r. destruct cur; [now destruct N|reflexivity].
  - cbn [app words_from]. replace (c =? 32) with false by (specialize (H c (or_introl eq_refl)); lia). rewrite IH; [cbn [rev]; now rewrite <- app_assoc|intros x Hx; apply H; now right|]. destruct w; discriminate.
Qed.
Lemma words_last w cur : (forall c, In c w -> c <> 32) -> w ++ cur <> [] -> words_from cur w = [rev cur ++ w].
Proof.
  revert cur. induction w as [|c w IH]; intros cur H N.
  - cbn [app words_from]. rewrite app_nil_r. destruct cur; [now destruct N|reflexivity].
  - cbn [words_from]. replace (c =? 32) with false by (specialize (H c (or_introl eq_refl)); lia). rewrite IH; [cbn [rev]; now rewrite <- app_assoc|intros x Hx; apply H; now right|]. destruct w; discriminate.
Qed.
Definition token_ok (w : bytes) : Prop := w <> [] /\ forall c, In c w -> 33 <= c <= 126.
Lemma words_many ws w : Forall token_ok ws -> token_ok w -> words_from [] (flat_map (fun w => w ++ [32]) ws ++ w) = ws ++ [w].
Proof.
  intros H (N & Hw). induction H as [|v ws (Nv & Hv) H IH].
  - cbn [flat_map app]. rewrite words_last; [reflexivity|intros c Hc; specialize (Hw c Hc); lia|now rewrite app_nil_r].
  - cbn [flat_map app]. rewrite <- !app_assoc. change ([32] ++ ?x) with (32 :: x). rewrite words_one; [now rewrite IH|intros c Hc; specialize (Hv c Hc); lia|now rewrite app_nil_r].
Qed.
Fixpoint toks (k : nat) (j last : Z) (enc ref : list entry) : list bytes :=
  match k, enc, ref with
  | S k, e :: enc, r :: ref =>
      if beqb (fst e) (fst r) then toks k (j + 1) last enc ref
      else (if j =? last + 1 then [] else [dec j]) ++ (47 :: fst e) :: toks k (j + 1) j enc ref
  | _, _, _ => []
  end.
Lemma diff_toks k : forall j last enc ref, diff_from k j last enc ref = flat_map (fun w => w ++ [32]) (toks k j last enc ref).
Proof.
  induction k as [|k IH]; intros j last enc ref; [reflexivity|]. destruct enc as [|e enc]; [reflexivity|]. destruct ref as [|r ref]; [reflexivity|]. cbn [diff_from toks].
  destruct (beqb (fst e) (fst r)); [apply IH|]. rewrite flat_map_app. cbn [flat_map]. rewrite <- IH. destruct (j =? last + 1); cbn [flat_map app]; rewrite <- ?app_assoc; reflexivity.
Qed.
Lemma digit_dec j : 0 <= j -> Forall (fun c => is_digit c = true) (dec j).
Proof. intros H. unfold dec. replace (j <? 0) with false by lia. apply dec_fuel_digits. Qed.
Lemma dec_nonempty j : dec j <> [].
Proof. unfold dec. destruct (j <? 0); [discriminate|]. destruct (dec_nat_cons j) as (c & t & -> & _). discriminate. Qed.
Lemma dec_token j : 0 <= j -> token_ok (dec j).
Proof. intros H. split; [apply dec_nonempty|]. intros c Hc. pose proof (digit_dec j H) as D. rewrite Forall_forall in D. specialize (D c Hc). unfold is_digit in D. lia. Qed.
Lemma regular_token n : regular_name n -> token_ok n.
Proof. intros (N & H). split; [exact N|]. intros c Hc. rewrite Forall_forall in H. apply H, Hc. Qed.
Lemma toks_ok k : forall j last enc ref, 0 <= j -> Forall (fun e => regular_name (fst e)) enc -> Forall token_ok (toks k j last enc ref).
Proof.
  induction k as [|k IH]; intros j last enc ref Hj H; [constructor|]. destruct enc as [|e enc]; [constructor|]. destruct ref as [|r ref]; [constructor|]. cbn [toks]. inversion_clear H as [|? ? He H1].
  destruct (beqb (fst e) (fst r)); [apply IH; [lia|exact H1]|]. apply Forall_app. split.
  - destruct (j =? last + 1); [constructor|]. constructor; [now apply dec_token|constructor].
  - constructor; [|apply IH; [lia|exact H1]]. apply regular_token in He as (_ & He). split; [discriminate|]. intros c [<-|Hc]; [lia|now apply He].
Qed.
Lemma trim_token r w : token_ok w -> rev (trim_rev (rev (r ++ w ++ [32]))) = r ++ w.
Proof.
  intros (N & H). replace (rev (r ++ w ++ [32])) with (32 :: rev w ++ rev r) by (rewrite !rev_app_distr; reflexivity). cbn [trim_rev]. change (is_space 32) with true. cbv iota. destruct (rev w) as [|c t] eqn:E; [apply (f_equal (@rev Z)) in E; rewrite rev_involutive in E; now rewrite E in N|].
  assert (Hc : In c w) by (apply in_rev; rewrite E; now left). specialize (H c Hc). cbn [app trim_rev]. assert (S : is_space c = false) by (unfold is_space; lia). rewrite S.
  change (c :: t ++ rev r) with ((c :: t) ++ rev r). rewrite <- E, rev_app_distr, !rev_involutive. reflexivity.
Qed.
Lemma words_trimmed ws : Forall token_ok ws -> words (rev (trim_rev (rev (flat_map (fun w => w ++ [32]) ws)))) = ws.
Proof.
  intros H. destruct ws as [|w ws] using rev_ind; [reflexivity|]. clear IHws. apply Forall_app in H as (H1 & H2). inversion_clear H2 as [|? ? Hw _]. rewrite flat_map_app. cbn [flat_map]. rewrite app_nil_r.
  rewrite trim_token by exact Hw. unfold words. now apply words_many.
Qed.
Lemma applied_toks k : forall j last enc ref names, 0 <= last -> last < j -> length enc = k -> length ref = k ->
  (forall i, 0 <= i < Z.of_nat k -> nth_error ref (Z.to_nat i) = Some (names (j + i), snd (nth (Z.to_nat i) ref ([], 0)))) ->
  forall i, applied (toks k j last enc ref) (last + 1) names i = if (j <=? i) && (i <? j + Z.of_nat k) then fst (nth (Z.to_nat (i - j)) enc ([], 0)) else names i.
Proof.
  induction k as [|k IH]; intros j last enc ref names Hl Hj Le Lr HR i.
  - cbn [toks applied]. replace ((j <=? i) && (i <? j + Z.of_nat 0)) with false by lia. reflexivity.
  - destruct enc as [|e enc]; [discriminate|]. destruct ref as [|r ref]; [discriminate|]. cbn [length] in Le, Lr. injection Le as Le. injection Lr as Lr. cbn [toks].
    assert (R0 : fst r = names j) by (specialize (HR 0 ltac:(lia)); change (Z.to_nat 0) with 0%nat in HR; rewrite Z.add_0_r in HR; cbn in HR; injection HR as HR; now rewrite HR).
    assert (HR' : forall i, 0 <= i < Z.of_nat k -> nth_error ref (Z.to_nat i) = Some (names (j + 1 + i), snd (nth (Z.to_nat i) ref ([], 0)))).
    { intros x Hx. specialize (HR (x + 1) ltac:(lia)). replace (Z.to_nat (x + 1)) with (S (Z.to_nat x)) in HR by lia. cbn in HR. rewrite HR. do 3 f_equal. lia. }
    assert (NX : forall i, j + 1 <= i -> nth (Z.to_nat (i - j)) (e :: enc) ([], 0) = nth (Z.to_nat (i - (j + 1))) enc ([], 0)) by (intros x Hx; replace (Z.to_nat (x - j)) with (S (Z.to_nat (x - (j + 1)))) by lia; reflexivity).
    match goal with |- context [if beqb ?a ?b then _ else _] => destruct (beqb a b) eqn:E end.
    + apply beqb_eq in E. cbv iota. rewrite (IH (j + 1) last enc ref names) by (assumption || lia). destruct (Z.eq_dec i j) as [->|N].
      * replace ((j + 1 <=? j) && (j <? j + 1 + Z.of_nat k)) with false by lia. replace ((j <=? j) && (j <? j + Z.of_nat (S k))) with true by lia. rewrite Z.sub_diag. cbn. now rewrite E.
      * destruct (Z.leb_spec (j + 1) i) as [L|L].
        -- replace (j <=? i) with true by lia. rewrite NX by lia. now replace (j + 1 + Z.of_nat k) with (j + Z.of_nat (S k)) by lia.
        -- now replace (j <=? i) with false by lia.
    + assert (ST : forall nm, (forall x, nm x = names x) -> applied ((47 :: fst e) :: toks k (j + 1) j enc ref) j nm i = if (j <=? i) && (i <? j + Z.of_nat (S k)) then fst (nth (Z.to_nat (i - j)) (e :: enc) ([], 0)) else names i).
      { intros nm Hn. cbn [applied]. change (47 =? 47) with true. cbv iota. rewrite (IH (j + 1) j enc ref); [|lia|lia|exact Le|exact Lr|].
        - destruct (Z.leb_spec (j + 1) i) as [L|L].
          + replace (j <=? i) with true by lia. replace (j + 1 + Z.of_nat k) with (j + Z.of_nat (S k)) by lia. rewrite NX by lia. cbn [andb]. destruct (i <? _) eqn:X; [reflexivity|]. replace (i =? j) with false by lia. apply Hn.
          + cbn [andb]. destruct (Z.eqb_spec i j) as [->|N].
            * replace ((j <=? j) && (j <? j + Z.of_nat (S k))) with true by lia. rewrite Z.sub_diag. reflexivity.
            * replace ((j <=? i) && (i <? j + Z.of_nat (S k))) with false by lia. apply Hn.
        - intros x Hx. rewrite HR' by exact Hx. replace (j + 1 + x =? j) with false by lia. now rewrite Hn. }
      destruct (Z.eqb_spec j (last + 1)) as [Q|Q].
      * cbn [app]. rewrite <- Q. now apply ST.
      * cbn [app]. pose proof (ST names ltac:(reflexivity)) as X. destruct (dec_nat_cons j) as (c & t & D & G). assert (DD : dec j = c :: t) by (unfold dec; replace (j <? 0) with false by lia; exact D).
        remember ((47 :: fst e) :: toks k (j + 1) j enc ref) as l eqn:El. cbn [applied]. rewrite DD. unfold is_digit in G. replace (c =? 47) with false by lia. rewrite <- DD. clear El.
        pose proof (read_dec_dec j [] ltac:(lia)) as RD. rewrite app_nil_r in RD. rewrite RD by exact I. exact X.
Qed.
Lemma nth_range_map {A} (f : Z -> A) n a i d : (i < n)%nat -> nth i (map f (range a n)) d = f (a + Z.of_nat i).
Proof. intros H. apply nth_error_nth. rewrite nth_error_map, range_nth by exact H. reflexivity. Qed.

(** ** metric files *)
Lemma ok_space w c : word_ok w -> In c w -> is_space c = false.
Proof. intros (_ & H) Hc. rewrite Forall_forall in H. specialize (H c Hc). unfold is_space. lia. Qed.
Lemma fields_one w cur s : (forall c, In c w -> is_space c = false) -> w ++ cur <> [] -> fields_from cur (w ++ 32 :: s) = (rev cur ++ w) :: fields_from [] s.
Proof.
  revert cur. induction w as [|c w IH]; intros cur H N.
  - cbn [app fields_from]. change (is_space 32) with true. rewrite app_nil_r. destruct cur; [now destruct N|reflexivity].
  - cbn [app fields_from]. rewrite (H c (or_introl eq_refl)). rewrite IH; [cbn [rev]; now rewrite <- app_assoc|intros x Hx; apply H; now right|]. destruct w; discriminate.
Qed.
Lemma fields_last w cur : (forall c, In c w -> is_space c = false) -> w ++ cur <> [] -> fields_from cur w = [rev cur ++ w].
Proof.
  revert cur. induction w as [|c w IH]; intros cur H N.
  - cbn [app fields_from]. rewrite app_nil_r. destruct cur; [now destruct N|reflexivity].
  - cbn [fields_from]. rewrite (H c (or_introl eq_refl)). rewrite IH; [cbn [rev]; now rewrite <- app_assoc|intros x Hx; apply H; now right|]. destruct w; discriminate.
Qed.
Lemma fields_joined ws : Forall word_ok ws -> fields_from [] (joined ws) = ws.
Proof.
  intros H. induction H as [|w ws Hw H IH]; [reflexivity|]. assert (N : w ++ [] <> []) by (rewrite app_nil_r; apply Hw). destruct ws as [|v ws].
  - cbn [joined]. rewrite fields_last; [reflexivity|intros c; now apply ok_space|exact N].
  - change (joined (w :: v :: ws)) with (w ++ 32 :: joined (v :: ws)). rewrite fields_one; [now rewrite IH|intros c; now apply ok_space|exact N].
Qed.
Lemma joined_plain ws : Forall word_ok ws -> plain_text (joined ws).
Proof.
  intros H. assert (P : forall w, word_ok w -> forall c, In c w -> c <> 10 /\ c <> 13) by (intros w Hw c Hc; pose proof (ok_space w c Hw Hc) as X; unfold is_space in X; lia).
  induction H as [|w ws Hw H IH]; [intros c []|]. destruct ws as [|v ws]; [intros c Hc; now apply (P w)|]. intros c Hc. change (joined (w :: v :: ws)) with (w ++ 32 :: joined (v :: ws)) in Hc. apply in_app_or in Hc as [Hc|[<-|Hc]]; [now apply (P w)|lia|now apply IH].
Qed.
Lemma atoi_dec v : small v -> atoi (dec v) = Some v.
Proof.
  intros H. unfold small in H. unfold atoi, dec. destruct (Z.ltb_spec v 0) as [L|L].
  - rewrite Z.eqb_refl. pose proof (read_dec_nat (- v) []) as X. rewrite app_nil_r in X. rewrite X by (lia || exact I). replace ((- 2 ^ 63 <=? - - v) && (- - v <? 2 ^ 63)) with true by lia. f_equal. lia.
  - destruct (dec_nat_cons v) as (c & t & E & G). pose proof (read_dec_nat v []) as X. rewrite app_nil_r in X. rewrite E in *. unfold is_digit in G. replace (c =? 45) with false by lia. replace (c =? 43) with false by lia.
    rewrite X by (lia || exact I). replace ((- 2 ^ 63 <=? v) && (v <? 2 ^ 63)) with true by lia. reflexivity.
Qed.
(** what the items do *)
Definition num_step (key : string) (x : Z) (i : afm_item) : Z := match i with Number k v => if beqb k (bs key) then v else x | _ => x end.
Definition word_step (key : string) (x : bytes) (i : afm_item) : bytes := match i with Word k v => if beqb k (bs key) then v else x | _ => x end.
Definition box_step (x : Z * Z * Z * Z) (i : afm_item) : Z * Z * Z * Z := match i with Box a b c d => (a, b, c, d) | _ => x end.
Definition width_step (name : bytes) (x : option Z) (i : afm_item) : option Z := match i with Metric _ w n _ => if beqb n name then Some w else x | _ => x end.
Record after (l : list afm_item) (a b : afm) : Prop := {
  af_widths : forall n, wd_of (a_widths b) n = fold_left (width_step n) l (wd_of (a_widths a) n);
  af_name : a_name b = fold_left (word_step "FontName") l (a_name a);
  af_weight : forall w, a_weight a = lower w -> a_weight b = lower (fold_left (word_step "Weight") l w);
  af_fixed : forall w, a_fixed a = beqb w (bs "true") -> a_fixed b = beqb (fold_left (word_step "IsFixedPitch") l w) (bs "true");
  af_up : a_up b = fold_left (num_step "UnderlinePosition") l (a_up a);
  af_ut : a_ut b = fold_left (num_step "UnderlineThickness") l (a_ut a);
  af_asc : k_asc (a_desc b) = fold_left (num_step "Ascender") l (k_asc (a_desc a));
  af_dsc : k_desc (a_desc b) = fold_left (num_step "Descender") l (k_desc (a_desc a));
  af_cap : k_cap (a_desc b) = fold_left (num_step "CapHeight") l (k_cap (a_desc a));
  af_angle : k_angle (a_desc b) = fold_left (num_step "ItalicAngle") l (k_angle (a_desc a));
  af_stem : k_stem (a_desc b) = fold_left (num_step "StdVW") l (k_stem (a_desc a));
  af_box : k_box (a_desc b) = fold_left box_step l (k_box (a_desc a));
  af_missing : k_missing (a_desc b) = k_missing (a_desc a) }.
Lemma after_trans i l a b c : after [i] a b -> after l b c -> after (i :: l) a c.
Proof.
  intros H1 H2. destruct H1, H2. cbn [fold_left] in *. constructor; cbn [fold_left].
  - intros n. rewrite af_widths1. now rewrite af_widths0.
  - now rewrite af_name1, af_name0.
  - intros w Hw. now apply af_weight1, af_weight0.
  - intros w Hw. now apply af_fixed1, af_fixed0.
  - now rewrite af_up1, af_up0.
  - now rewrite af_ut1, af_ut0.
  - now rewrite af_asc1, af_asc0.
  - now rewrite af_dsc1, af_dsc0.
  - now rewrite af_cap1, af_cap0.
  - now rewrite af_angle1, af_angle0.
  - now rewrite af_stem1, af_stem0.
  - now rewrite af_box1, af_box0.
  - now rewrite af_missing1, af_missing0.
Qed.
Ltac same_after := constructor; cbn -[beqb lower dec]; intros; try reflexivity; try assumption.
Definition whole (i : afm_item) : Prop := match i with Decimal _ _ _ => False | _ => True end.
Lemma line_ok a i : item_ok i -> whole i -> exists b, afm_line a (item_words i) = Ret (Some b) /\ after [i] a b.
Proof.
  intros (_ & H) W. destruct i as [c w n more|k v|k v ds|k v|x0 y0 x1 y1|ws]; [| |destruct W| | |].
  - unfold afm_line, item_words. cbn -[beqb atoi dec]. change (beqb (bs "C") (bs "C")) with true. cbv iota. rewrite atoi_dec by exact H. eexists. split; [reflexivity|]. same_after.
    destruct (beqb n n0) eqn:E; destruct (beqb n0 n) eqn:E2; try reflexivity; [apply beqb_eq in E; subst; rewrite beqb_refl in E2; discriminate|apply beqb_eq in E2; subst; rewrite beqb_refl in E; discriminate].
  - destruct H as (Hk & Hv). unfold number_keys in Hk. cbn [map In] in Hk. unfold afm_line, item_words. cbv zeta. rewrite (atoi_dec v Hv).
    repeat (destruct Hk as [<-|Hk]; [cbn -[beqb dec bs]; repeat match goal with |- context [beqb ?x ?y] => let r := eval vm_compute in (beqb x y) in change (beqb x y) with r; cbv iota end; eexists; (split; [reflexivity|]); same_after|]). destruct Hk.
  - unfold word_keys in H. cbn [map In] in H. unfold afm_line, item_words. cbv zeta.
    repeat (destruct H as [<-|H]; [cbn -[beqb lower bs]; repeat match goal with |- context [beqb (bs ?x) (bs ?y)] => let r := eval vm_compute in (beqb (bs x) (bs y)) in change (beqb (bs x) (bs y)) with r; cbv iota end; eexists; (split; [reflexivity|]); same_after|]). destruct H.
  - destruct H as (H1 & H2 & H3 & H4). unfold afm_line, item_words. cbn -[beqb atoi dec bs].
    repeat match goal with |- context [beqb (bs ?x) (bs ?y)] => let r := eval vm_compute in (beqb (bs x) (bs y)) in change (beqb (bs x) (bs y)) with r; cbv iota end.
    rewrite !atoi_dec by assumption. eexists. split; [reflexivity|]. same_after.
  - unfold item_words. destruct ws as [|k [|v ws]]; [exists a; split; [reflexivity|same_after]..|]. exists a. split; [|same_after].
    assert (N : forall x, In x (bs "C" :: bs "FontBBox" :: number_keys ++ word_keys) -> beqb k x = false) by (intros x Hx; destruct (beqb k x) eqn:E; [|reflexivity]; apply beqb_eq in E; subst; now destruct H).
    unfold afm_line. rewrite !N; [reflexivity|..]; unfold number_keys, word_keys; cbn [map app In]; tauto.
Qed.
Lemma afm_lines_ok l : Forall item_ok l -> Forall whole l -> forall a, exists b, afm_lines (map (fun i => joined (item_words i)) l) a = Ret (Some b) /\ after l a b.
Proof.
  intros H. induction H as [|i l Hi H IH]; intros W a; [exists a; split; [reflexivity|same_after]|]. inversion_clear W as [|? ? Wi W']. cbn [map afm_lines]. rewrite fields_joined by apply Hi.
  destruct (line_ok a i Hi Wi) as (b & E & A). rewrite E. cbn [obind]. destruct (IH W' b) as (c & E2 & A2). exists c. split; [exact E2|]. exact (after_trans i l a b c A A2).
Qed.
Lemma afm_text_lines l : Forall item_ok l -> lines_from [] (afm_text l) = map (fun i => joined (item_words i)) l.
Proof. intros H. apply lines_ok. eapply Forall_impl; [|exact H]. intros i (Hi & _). now apply joined_plain. Qed.

(** ** segments *)
Lemma le32_value n : 0 <= n < 2 ^ 32 -> n mod 256 + 256 * (n / 256 mod 256) + 65536 * (n / 65536 mod 256) + 16777216 * (n / 16777216 mod 256) = n.
Proof.
  intros H. pose proof (Z.div_mod n 256 ltac:(lia)) as E1. pose proof (Z.div_mod (n / 256) 256 ltac:(lia)) as E2. pose proof (Z.div_mod (n / 65536) 256 ltac:(lia)) as E3. 
  rewrite Z.div_div in E2 by lia. rewrite Z.div_div in E3 by lia. change (256 * 256) with 65536 in E2. change (65536 * 256) with 16777216 in E3.
  rewrite (Z.mod_small (n / 16777216)) by (split; [apply Z.div_pos; lia|apply Z.div_lt_upper_bound; lia]). lia.
Qed.
Lemma segment_ok pre t d rest : len d < 2 ^ 32 -> segment (pre ++ pfb_segment t d ++ rest) (len pre) = Some (d, len pre + 6 + len d).
Proof.
  intros H. set (n := len d) in *. assert (L : flen (pre ++ pfb_segment t d ++ rest) = len pre + 6 + n + len rest) by (unfold flen, pfb_segment, le32, n; rewrite !app_length; cbn [length app]; rewrite ?app_length; lia).
  unfold segment. rewrite L. replace (len pre + 6 <=? len pre + 6 + n + len rest) with true by lia.
  assert (B : forall i, 0 <= i -> byte_at (pre ++ pfb_segment t d ++ rest) (len pre + i) = byte_at (pfb_segment t d ++ rest) i) by (intros i Hi; apply byte_app; exact Hi).
  pose proof (B 0 ltac:(lia)) as B0. rewrite Z.add_0_r in B0. rewrite B0, !B by lia. unfold pfb_segment. fold n. 
  change (byte_at ((128 :: t :: le32 n ++ d) ++ rest) 0) with 128. rewrite Z.eqb_refl.
  change (byte_at ((128 :: t :: le32 n ++ d) ++ rest) 2) with (n mod 256). change (byte_at ((128 :: t :: le32 n ++ d) ++ rest) 3) with (n / 256 mod 256).
  change (byte_at ((128 :: t :: le32 n ++ d) ++ rest) 4) with (n / 65536 mod 256). change (byte_at ((128 :: t :: le32 n ++ d) ++ rest) 5) with (n / 16777216 mod 256).
  rewrite le32_value by lia. cbv zeta. replace ((0 <? n) && (len pre + 6 + n + len rest <=? len pre + 6)) with false by lia.
  replace (Z.min n (len pre + 6 + n + len rest - (len pre + 6))) with n by lia. replace (Z.to_nat (n - (len pre + 6 + n + len rest - (len pre + 6)))) with 0%nat by lia. cbn [repeat]. rewrite app_nil_r.
  replace (pre ++ (128 :: t :: le32 n ++ d) ++ rest) with ((pre ++ 128 :: t :: le32 n) ++ d ++ rest) by (rewrite <- !app_assoc; reflexivity).
  replace (len pre + 6) with (Z.of_nat (length (pre ++ 128 :: t :: le32 n))) by (rewrite app_length; cbn [length le32]; lia). unfold n at 3. rewrite extract_app. reflexivity.
Qed.

(** ** names of files *)
Lemma after_slash_none s acc : ~ In 47 s -> after_slash acc s = rev acc ++ s.
Proof. revert acc. induction s as [|c s IH]; intros acc H; cbn [after_slash]; [now rewrite app_nil_r|]. replace (c =? 47) with false by (assert (c <> 47) by (intros ->; apply H; now left); lia). rewrite IH; [cbn [rev]; now rewrite <- app_assoc|]. intros X. apply H. now right. Qed.
Lemma after_slash_dir d s acc : after_slash acc (d ++ 47 :: s) = after_slash [] s.
Proof. revert acc. induction d as [|c d IH]; intros acc; cbn [app after_slash]; [reflexivity|]. destruct (c =? 47); apply IH. Qed.
Lemma before_dot_ok e r : ~ In 46 e -> before_dot (e ++ 46 :: r) = Some r.
Proof. induction e as [|c e IH]; intros H; cbn [app before_dot]; [reflexivity|]. replace (c =? 46) with false by (assert (c <> 46) by (intros ->; apply H; now left); lia). apply IH. intros X. apply H. now right. Qed.
Lemma base_ok dir b e name : file_name dir b e name -> base_no_ext name = b.
Proof.
  intros (-> & D & Hb & He1 & He2). unfold base_no_ext. assert (A : after_slash [] (dir ++ b ++ 46 :: e) = b ++ 46 :: e).
  { assert (N : ~ In 47 (b ++ 46 :: e)) by (intros X; apply in_app_or in X as [X|[X|X]]; [auto|lia|auto]).
    destruct D as [->|(d & ->)]; [|rewrite <- app_assoc; change ([47] ++ ?x) with (47 :: x); rewrite after_slash_dir]; now rewrite ?app_nil_l, after_slash_none. }
  rewrite A, rev_app_distr. cbn [rev]. rewrite <- app_assoc. change ([46] ++ rev b) with (46 :: rev b). rewrite before_dot_ok by (intros X; apply He2; now apply in_rev). apply rev_involutive.
Qed.
