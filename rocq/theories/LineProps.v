(** Property theorems C07-C11, C53, C54 (line splitting, MultiCell, Write, string width). *)
From Verif Require Import Base TextModel TextSpec TextProofs LineModel LineSpec LineProofs
  MultiCellProofs WriteModel WriteProofs GreedyProofs.
From Coq Require Import String.
Open Scope Z_scope.
Notation length := List.length.

(** ** Auxiliary *)
Lemma strip_cr txt : replace_all [13] [] txt = filter (fun c => negb (c =? 13)) txt.
Proof.
  rewrite replace_all_byte. induction txt as [|c t IH]; [reflexivity|]. cbn [flat_map filter].
  rewrite IH, (Z.eqb_sym 13 c). destruct (c =? 13); reflexivity.
Qed.

Lemma body_trim txt : is_body txt (trim_nl (replace_all [13] [] txt)).
Proof.
  rewrite strip_cr. destruct (trim_nl_spec (filter (fun c => negb (c =? 13)) txt)) as (k & E & H).
  exists k. split; [exact E|exact H].
Qed.

Lemma snoc_repeat_inj (s s' : list Z) k k' :
  s ++ repeat 10 k = s' ++ repeat 10 k' -> (forall p, s <> p ++ [10]) -> (forall p, s' <> p ++ [10]) -> s = s'.
Proof.
  revert k'. induction k as [|k IH]; intros [|k'] E H H'.
  - now rewrite !app_nil_r in E.
  - rewrite app_nil_r in E. exfalso. apply (H (s' ++ repeat 10 k')). rewrite E.
    replace (S k') with (k' + 1)%nat by lia. rewrite repeat_app. cbn. now rewrite app_assoc.
  - rewrite app_nil_r in E. exfalso. apply (H' (s ++ repeat 10 k)). rewrite <- E.
    replace (S k) with (k + 1)%nat by lia. rewrite repeat_app. cbn. now rewrite app_assoc.
  - apply (IH k'); auto. replace (S k) with (k + 1)%nat in E by lia. replace (S k') with (k' + 1)%nat in E by lia.
    rewrite !repeat_app, !app_assoc in E. cbn in E. now apply app_inj_tail in E as [E _].
Qed.

Lemma body_unique txt s s' : is_body txt s -> is_body txt s' -> s = s'.
Proof.
  intros (k & E & H) (k' & E' & H'). rewrite E in E'. eapply snoc_repeat_inj; eauto.
Qed.

Lemma in_close ls z (ln : list Z) : In ln (close ls z) -> In ln ls \/ ln = z.
Proof.
  unfold close. destruct z as [|d z]; [auto|]. intros H. apply in_app_or in H as [H|[H|[]]]; auto.
Qed.

Lemma no_loss_close sep wd wmax s ls z :
  greedy sep wd wmax s ls z -> no_loss sep s (close ls z).
Proof.
  intros Hg. destruct (greedy_reassemble _ _ _ _ _ _ Hg) as (brk & Hl & E & HF).
  exists ls, z, brk. split; [unfold close; destruct z; auto|]. split; [exact Hl|]. split; [exact E|].
  clear -HF. induction HF as [|ln b ls brk H HF IH]; constructor; [|exact IH]. destruct b; [exact H|exact I].
Qed.

Lemma no_loss_snoc sep wd wmax s ls z :
  greedy sep wd wmax s ls z -> no_loss sep s (ls ++ [z]).
Proof.
  intros Hg. destruct (greedy_reassemble _ _ _ _ _ _ Hg) as (brk & Hl & E & HF).
  exists ls, z, brk. split; [now left|]. split; [exact Hl|]. split; [exact E|].
  clear -HF. induction HF as [|ln b ls brk H HF IH]; constructor; [|exact IH]. destruct b; [exact H|exact I].
Qed.

Definition line_fits (w : Z -> Z) (wmax : Z) (ln : list Z) : Prop :=
  width w ln <= Z.max 0 wmax \/ length ln = 1%nat.

Lemma greedy_lines sep w wmax t ls z : greedy sep w wmax t ls z ->
  (forall ln, In ln ls \/ ln = z -> line_fits w wmax ln /\ ~ In 10 ln).
Proof.
  intros Hg. destruct (greedy_widths _ _ _ _ _ _ Hg) as [H1 H2].
  destruct (greedy_no_nl _ _ _ _ _ _ Hg) as [H3 H4]. rewrite Forall_forall in H1, H3.
  intros ln [Hln| ->]; split; auto; unfold line_fits; [now apply H1|now apply H3|left; now apply fits_width].
Qed.

(** ** C07: SplitLines.  [cw] is the width table of the current font, which has
    an entry for every byte of the text (a single-byte font has 256 entries). *)
Theorem C07_split_lines :
  forall (cw : list Z) (wmax : Z) (txt s : bytes),
    is_body txt s -> (forall c, In c s -> 0 <= c < Z.of_nat (length cw)) ->
    exists lines, split_lines cw wmax txt = Ret lines
      /\ no_loss (fun c => (c =? 32) || (c =? 9)) s lines
      /\ (forall ln, In ln lines -> line_fits (wd cw) wmax ln /\ ~ In 10 ln)
      /\ (exists ls z, greedy (fun c => (c =? 32) || (c =? 9) || (c =? 10)) (wd cw) wmax s ls z
            /\ lines = match z with [] => ls | _ => ls ++ [z] end).
Proof.
  intros cw wmax txt s Hb Hc. pose proof (body_unique _ _ _ Hb (body_trim txt)) as ->.
  set (s := trim_nl (replace_all [13] [] txt)) in *.
  destruct (split_run_greedy sl_sep cw wmax s) as (ls & z & Hg & Hr); [reflexivity| |].
  { apply Forall_forall. intros c Hin. specialize (Hc c Hin). unfold at_.
    replace (c <? 0) with false by lia. apply nth_error_Some. lia. }
  exists (close ls z). split; [exact Hr|]. split; [|split].
  - assert (Hn := no_loss_close _ _ _ _ _ _ Hg). destruct Hn as (l' & z' & brk & H1 & H2 & H3 & H4).
    exists l', z', brk. split; [exact H1|]. split; [exact H2|]. split; [exact H3|].
    eapply Forall_impl; [|exact H4]. intros [c|]; [|auto]. intros [->|Hs]; [auto|].
    unfold sl_sep in Hs. destruct (c =? 10) eqn:E; [left; lia|right]. now rewrite orb_false_r in Hs.
  - intros ln Hln. apply in_close in Hln. now apply (greedy_lines _ _ _ _ _ _ Hg).
  - exists ls, z. split; [exact Hg|reflexivity].
Qed.
Print Assumptions C07_split_lines.
(** "ab cd  ef" in a font of 256 glyphs of width 500, four glyphs per line *)
Example C07_ex : is_body (bs "ab cd" ++ [13; 10] ++ bs "efghij" ++ [10]) (bs "ab cd" ++ [10] ++ bs "efghij")
  /\ split_lines (repeat 500 256) 2000 (bs "ab cd" ++ [13; 10] ++ bs "efghij" ++ [10])
     = Ret [bs "ab"; bs "cd"; bs "efgh"; bs "ij"].
Proof.
  split; [|reflexivity]. exists 1%nat. split; [reflexivity|]. intros p E.
  apply (f_equal (fun l => last l 0)) in E. rewrite last_last in E. discriminate.
Qed.

(** ** C08: SplitText.  Full statement: the characters dropped are white space. *)
Definition C08_statement : Prop :=
  forall (cw : list Z) (wmax : Z) (t s : list Z),
    Forall scalar t -> (exists k, t = s ++ repeat 10 k) -> (forall p, s <> p ++ [10]) ->
    (forall c, In c t -> c < Z.of_nat (length cw)) ->
    exists lines, split_text cw wmax (utf8 t) = Ret (map utf8 lines)
      /\ Forall (Forall scalar) lines
      /\ no_loss is_space s lines
      /\ (forall ln, In ln lines -> line_fits (wd cw) wmax ln /\ ~ In 10 ln).

(** Three Chinese characters on a line with room for two: the third is lost. *)
Theorem C08_split_text_refuted : ~ C08_statement.
Proof.
  intros H. specialize (H (repeat 500 (Z.to_nat 20000)) 1000 [19968; 19969; 19970] [19968; 19969; 19970]).
  lapply H; [clear H; intros H|repeat constructor; unfold scalar; lia].
  lapply H; [clear H; intros H|now exists 0%nat].
  lapply H; [clear H; intros H|].
  2:{ intros p E. apply (f_equal (fun l => last l 0)) in E. rewrite last_last in E. discriminate. }
  lapply H; [clear H; intros H|].
  2:{ rewrite repeat_length, Z2Nat.id by lia. cbn [In]. intros c Hc. lia. }
  destruct H as (lines & Hr & Hsc & Hn & _).
  assert (E : split_text (repeat 500 (Z.to_nat 20000)) 1000 (utf8 [19968; 19969; 19970]) = Ret [utf8 [19968; 19969]])
    by (vm_compute; reflexivity).
  rewrite E in Hr. clear E. injection Hr as Hr. destruct lines as [|l0 [|l1 lines]]; try discriminate.
  cbn [map] in Hr. inversion Hsc as [|? ? Hs0 _]; subst.
  injection Hr as Hr. apply (f_equal go_runes) in Hr.
  change (go_runes (utf8 [19968; 19969]) = go_runes (utf8 l0)) in Hr.
  rewrite !go_runes_utf8 in Hr; [|exact Hs0|repeat constructor; unfold scalar; lia]. subst l0.
  destruct Hn as (ls & z & brk & Hls & Hl & Es & HF).
  destruct Hls as [Hls|[Hls Hz]].
  - destruct ls as [|a [|? ?]]; try discriminate. destruct brk; [|discriminate]. cbn in Es.
    injection Hls as <-. discriminate.
  - subst. destruct brk as [|b [|? ?]]; try discriminate. cbn in Es.
    inversion HF as [|? ? Hb _]; subst. destruct b as [c|]; [|discriminate].
    injection Es as <-. destruct Hb as [Hb|Hb]; [discriminate|]. vm_compute in Hb. discriminate.
Qed.
Print Assumptions C08_split_text_refuted.

Lemma trim_nl_unique t s k : t = s ++ repeat 10 k -> (forall p, s <> p ++ [10]) -> trim_nl t = s.
Proof.
  intros E H. destruct (trim_nl_spec t) as (k' & E' & H'). rewrite E in E' at 1.
  symmetry. eapply snoc_repeat_inj; eauto.
Qed.

Lemma reassemble_in ls brk z c : In c (List.concat ls) \/ In c z -> length brk = length ls ->
  In c (reassemble (combine ls brk) z).
Proof.
  revert brk. induction ls as [|l ls IH]; intros [|b brk] H Hl; try discriminate.
  - destruct H as [[]|H]. exact H.
  - cbn [combine reassemble List.concat] in *. injection Hl as Hl.
    assert (Hc : In c l \/ In c (reassemble (combine ls brk) z)).
    { destruct H as [H|H]; [apply in_app_or in H as [H|H]|]; auto. }
    destruct b; apply in_or_app; destruct Hc as [Hc|Hc]; auto. right. now right.
Qed.

(** What holds: only Chinese characters can be lost beyond white space; a text
    without them loses nothing; SplitText never panics or loops when the font's
    table covers the text, and every line fits. *)
Theorem C08_split_text_partial :
  forall (cw : list Z) (wmax : Z) (t s : list Z),
    Forall scalar t -> (exists k, t = s ++ repeat 10 k) -> (forall p, s <> p ++ [10]) ->
    (forall c, In c t -> c < Z.of_nat (length cw)) ->
    exists lines, split_text cw wmax (utf8 t) = Ret (map utf8 lines)
      /\ Forall (Forall scalar) lines
      /\ no_loss (fun c => is_space c || is_chinese c) s lines
      /\ ((forall c, In c t -> is_chinese c = false) -> no_loss is_space s lines)
      /\ (forall ln, In ln lines -> line_fits (wd cw) wmax ln /\ ~ In 10 ln)
      /\ (exists ls z, greedy st_sep (wd cw) wmax s ls z
            /\ lines = match z with [] => ls | _ => ls ++ [z] end).
Proof.
  intros cw wmax t s Ht (k & Ek) Hs Hc. pose proof (trim_nl_unique t s k Ek Hs) as Etrim.
  unfold split_text, split_text_runes. rewrite go_runes_utf8 by exact Ht. rewrite Etrim.
  assert (Hin : forall c, In c s -> In c t) by (intros c Hi; rewrite Ek; apply in_or_app; now left).
  destruct (split_run_greedy st_sep cw wmax s) as (ls & z & Hg & Hr); [reflexivity| |].
  { apply Forall_forall. intros c Hi. apply Hin in Hi. specialize (Hc c Hi). rewrite Forall_forall in Ht.
    specialize (Ht c Hi). unfold at_. replace (c <? 0) with false by (unfold scalar in Ht; lia).
    apply nth_error_Some. unfold scalar in Ht. lia. }
  assert (Hall : Forall (Forall scalar) (close ls z)).
  { apply Forall_forall. intros ln Hln. apply Forall_forall. intros c Hcl. rewrite Forall_forall in Ht. apply Ht, Hin.
    destruct (greedy_reassemble _ _ _ _ _ _ Hg) as (brk & Hl & E & _). rewrite E. apply reassemble_in; [|exact Hl].
    apply in_close in Hln as [Hln| ->]; [left; apply in_concat; eauto|now right]. }
  exists (close ls z). rewrite Hr. cbn [obind]. split; [|split; [exact Hall|split; [|split; [|split]]]].
  - f_equal. apply map_ext_in. intros ln Hln. rewrite Forall_forall in Hall. apply go_string_scalar. now apply Hall.
  - exact (no_loss_close _ _ _ _ _ _ Hg).
  - intros Hch. destruct (greedy_reassemble _ _ _ _ _ _ Hg) as (brk & Hl & E & HF).
    exists ls, z, brk. split; [unfold close; destruct z; auto|]. split; [exact Hl|]. split; [exact E|].
    assert (Hb : forall c, In (Some c) brk -> In c s).
    { intros c Hb. rewrite E. clear -Hb Hl. revert brk Hb Hl.
      induction ls as [|l ls IH]; intros [|b brk] Hb Hl; try discriminate; [destruct Hb|].
      cbn [combine reassemble]. injection Hl as Hl. destruct Hb as [->|Hb].
      - apply in_or_app. right. now left.
      - specialize (IH brk Hb Hl). destruct b; apply in_or_app; right; [now right|exact IH]. }
    apply Forall_forall. intros [c|] Hbc; [|exact I]. specialize (Hb c Hbc).
    apply Hin in Hb. specialize (Hch c Hb).
    assert (HFb : c = 10 \/ st_sep c = true).
    { clear -HF Hbc. induction HF as [|ln b ls brk H HF IH]; [destruct Hbc|].
      destruct Hbc as [->|Hbc]; [exact H|now apply IH]. }
    destruct HFb as [->|HFb]; [now left|right]. unfold st_sep in HFb. now rewrite Hch, orb_false_r in HFb.
  - intros ln Hln. apply in_close in Hln. now apply (greedy_lines _ _ _ _ _ _ Hg).
  - exists ls, z. split; [exact Hg|reflexivity].
Qed.
Print Assumptions C08_split_text_partial.
Example C08_ex : split_text (repeat 500 300) 1500 (utf8 [233; 97; 32; 98; 233; 99; 100; 10])
  = Ret (map utf8 [[233; 97]; [98; 233; 99]; [100]]).
Proof. reflexivity. Qed.
(** outside the table the call panics (SplitText has no range check) *)
Example C08_panic : split_text (repeat 500 256) 1500 (utf8 [256]) = Panic.
Proof. reflexivity. Qed.

(** ** C09: MultiCell *)
(** what MultiCell has to set: the text without carriage returns and without
    its last newline (without all the trailing ones, for a UTF-8 font, whose
    text is taken character by character) *)
Definition cell_text (utf8font : bool) (txt : bytes) (s : list Z) : Prop :=
  let t := filter (fun b => negb (b =? 13)) txt in
  if utf8font then exists k, go_runes t = s ++ repeat 10 k /\ (forall p, s <> p ++ [10])
  else (t = s /\ forall p, s <> p ++ [10]) \/ t = s ++ [10].
(** the width of a glyph: an entry 0 means the missing width, 65535 no width *)
Definition cell_width (cw : list Z) (missing c : Z) : Z :=
  if c <? 0 then 0
  else match nth_error cw (Z.to_nat c) with
       | None => 0
       | Some w => if w =? 0 then missing else if w =? 65535 then 0 else w
       end.
Lemma cell_text_of utf8font txt : cell_text utf8font txt (mc_text_of utf8font txt).
Proof.
  unfold cell_text, mc_text_of. rewrite strip_cr. set (t := filter _ txt). destruct utf8font; [apply trim_nl_spec|].
  destruct (rev t) as [|c r] eqn:E.
  - left. split; [reflexivity|]. apply (f_equal (@rev Z)) in E. rewrite rev_involutive in E. rewrite E. intros [|? ?]; discriminate.
  - apply (f_equal (@rev Z)) in E. rewrite rev_involutive in E. cbn [rev] in E. destruct (Z.eqb_spec c 10) as [->|Hc]; [now right|left].
    split; [reflexivity|]. intros q Eq. rewrite E in Eq. apply app_inj_tail in Eq as [_ Eq]. contradiction.
Qed.
Lemma cell_text_unique utf8font txt s : cell_text utf8font txt s -> s = mc_text_of utf8font txt.
Proof.
  unfold cell_text, mc_text_of. rewrite strip_cr. set (t := filter _ txt). destruct utf8font.
  - intros (k & E & H). symmetry. now apply trim_nl_unique with k.
  - intros [[<- H]| ->].
    + destruct (rev t) as [|c r] eqn:E; [reflexivity|]. destruct (Z.eqb_spec c 10) as [->|]; [|reflexivity]. exfalso.
      apply (H (rev r)). apply (f_equal (@rev Z)) in E. now rewrite rev_involutive in E.
    + rewrite rev_app_distr. cbn. now rewrite rev_involutive.
Qed.
Lemma cell_width_eq cw missing c : wdm cw missing c = cell_width cw missing c.
Proof. unfold wdm, mc_width, cell_width, at_. destruct (c <? 0); [reflexivity|]. destruct (nth_error cw (Z.to_nat c)); reflexivity. Qed.
Lemma width_ext w w' l : (forall c, w c = w' c) -> width w l = width w' l.
Proof. intros H. induction l as [|c l IH]; [reflexivity|]. unfold width in *. cbn. now rewrite H, IH. Qed.


(** side [x] of the box was asked for by the border argument *)
Definition wants (border x : bytes) : Prop := border = bs "1" \/ containsb x border = true.

Definition C09_statement (sep : Z -> bool) : Prop :=
  forall (utf8font rtl : bool) (cw : list Z) (missing wmax : Z) (txt border align : bytes) cells s,
    multi_cell utf8font rtl cw missing wmax txt border align = McDone cells ->
    cell_text utf8font txt s -> no_loss sep s (map mc_text cells).

Lemma run_eq utf8font rtl cw missing wmax txt border align :
  multi_cell utf8font rtl cw missing wmax txt border align =
  (let '(border', b, b2) := mc_borders border in
   mc_loop utf8font rtl cw missing wmax (if beqb align [] then bs "J" else align) border' b2
     (mc_text_of utf8font txt) (split_fuel (mc_text_of utf8font txt)) 0 0 (-1) 0 0 0 1 b []).
Proof. reflexivity. Qed.

(** Even the statement that allows every white space to be dropped fails. *)
Theorem C09_multi_cell_refuted : ~ C09_statement is_space.
Proof.
  intros H. specialize (H true false (repeat 500 (Z.to_nat 20000)) 0 1000 (utf8 [19968; 19969; 19970]) [] (bs "L")).
  assert (E : exists c1 c2, multi_cell true false (repeat 500 (Z.to_nat 20000)) 0 1000 (utf8 [19968; 19969; 19970]) [] (bs "L")
      = McDone [c1; c2] /\ mc_text c1 = [19968; 19969] /\ mc_text c2 = []).
  { eexists. eexists. split; [vm_compute; reflexivity|]. split; reflexivity. }
  destruct E as (c1 & c2 & E & E1 & E2). specialize (H _ _ E (cell_text_of _ _)). clear E. cbn [map] in H. rewrite E1, E2 in H.
  change (mc_text_of true (utf8 [19968; 19969; 19970])) with [19968; 19969; 19970] in H.
  destruct H as (ls & z & brk & Hls & Hl & Es & HF).
  destruct Hls as [Hls|[<- Hz]].
  - destruct ls as [|a [|? [|? ?]]]; try discriminate. injection Hls as <- <-.
    destruct brk as [|b [|? ?]]; try discriminate. cbn in Es. destruct b as [c|]; [|discriminate].
    injection Es as <-. inversion HF as [|? ? Hb _]; subst. destruct Hb as [Hb|Hb]; [discriminate|].
    vm_compute in Hb. discriminate.
  - subst z. destruct brk as [|b [|b' [|? ?]]]; try discriminate. inversion HF as [|? ? Hb _]; subst.
    destruct b as [c|]; destruct b' as [c'|]; cbn in Es; try discriminate.
    + injection Es as <-. destruct Hb as [Hb|Hb]; [discriminate|]. vm_compute in Hb. discriminate.
    + injection Es as <-. inversion HF as [|? ? _ HF']; subst. inversion HF' as [|? ? Hb' _]; subst.
      destruct Hb' as [Hb'|Hb']; [discriminate|]. vm_compute in Hb'. discriminate.
Qed.
Print Assumptions C09_multi_cell_refuted.

Lemma containsb1_app c p q : containsb [c] (p ++ q) = containsb [c] p || containsb [c] q.
Proof.
  assert (H : forall s, containsb [c] s = existsb (fun x => c =? x) s).
  { induction s as [|x s IH]; [reflexivity|]. cbn [containsb prefixb existsb]. rewrite IH. now rewrite andb_true_r. }
  rewrite !H. apply existsb_app.
Qed.

Lemma borders_meaning border border' b b2 :
  mc_borders border = (border', b, b2) ->
  (containsb (bs "B") border' = true <-> wants border (bs "B")) /\
  (forall x, x = bs "L" \/ x = bs "R" -> (containsb x b = true <-> wants border x) /\
      (containsb x (if 0 <? Z.of_nat (length border') then b2 else b) = true <-> wants border x)) /\
  (containsb (bs "T") b = true <-> wants border (bs "T")) /\
  containsb (bs "T") (if 0 <? Z.of_nat (length border') then b2 else b) = false /\
  containsb (bs "B") b = false /\ containsb (bs "B") (if 0 <? Z.of_nat (length border') then b2 else b) = false.
Proof.
  assert (W1 : forall x, wants (bs "1") x <-> True) by (intros x; unfold wants; split; auto).
  assert (W : forall x, border <> bs "1" -> (wants border x <-> containsb x border = true)).
  { intros x Hne. unfold wants. split; [intros [E|E]; [now elim Hne|exact E]|auto]. }
  unfold mc_borders. destruct (beqb border []) eqn:E0; [|destruct (beqb border (bs "1")) eqn:E1].
  - apply beqb_eq in E0. subst. intros [= <- <- <-]. cbn [length Z.of_nat Z.ltb Z.compare].
    rewrite !W by discriminate. repeat split; auto; try discriminate;
      try (destruct H as [-> | ->]; rewrite ?W by discriminate; cbn; auto; discriminate).
  - apply beqb_eq in E1. subst. intros [= <- <- <-].
    change (0 <? Z.of_nat (length (bs "LTRB"))) with true. rewrite !W1.
    repeat split; auto; destruct H as [-> | ->]; rewrite ?W1; auto.
  - apply beqb_neq in E0. apply beqb_neq in E1. intros [= <- <- <-].
    replace (0 <? Z.of_nat (length border)) with true by (destruct border; [easy|reflexivity]).
    rewrite !W by exact E1.
    destruct (containsb (bs "L") border) eqn:EL, (containsb (bs "R") border) eqn:ER, (containsb (bs "T") border) eqn:ET;
      repeat split; auto; try discriminate;
      try (destruct H as [-> | ->]; rewrite ?W by exact E1; rewrite ?EL, ?ER; auto; cbn; auto; discriminate).
Qed.

Lemma tail_border (t : bool) border y : y <> 66 ->
  containsb [y] (if t then last_bord border else []) = false.
Proof.
  intros H. destruct t; [|reflexivity]. unfold last_bord. destruct (containsb (bs "B") border); [|reflexivity].
  cbn. replace (y =? 66) with false by lia. reflexivity.
Qed.

(** What holds of MultiCell, for every text, table, width, border and alignment:
    it ends normally or reports an error, exactly according to whether every
    character is in the font's table; the lines printed are the text with only
    break newlines, spaces and Chinese characters dropped, filled greedily; each
    line fits; the left and right borders are on every line, the top border on
    the first only, the bottom border on the last only, exactly when asked for. *)
Lemma multi_cell_main :
  forall (utf8font rtl : bool) (cw : list Z) (missing wmax : Z) (txt border align : bytes),
    let s := mc_text_of utf8font txt in
    ((exists c, In c s /\ c <> 10 /\ at_ cw c = None) /\
     exists cells, multi_cell utf8font rtl cw missing wmax txt border align = McErr cells)
    \/
    ((forall c, In c s -> c <> 10 -> at_ cw c <> None) /\
     exists cells, multi_cell utf8font rtl cw missing wmax txt border align = McDone cells
      /\ no_loss (fun c => (c =? 32) || is_chinese c) s (map mc_text cells)
      /\ ((forall c, In c s -> is_chinese c = false) -> no_loss (fun c => c =? 32) s (map mc_text cells))
      /\ (forall c, In c cells -> line_fits (wdm cw missing) wmax (mc_text c) /\ ~ In 10 (mc_text c))
      /\ (exists ls z, greedy (fun c => (c =? 32) || is_chinese c) (wdm cw missing) wmax s ls z
            /\ map mc_text cells = ls ++ [z])
      /\ (forall k c, nth_error cells k = Some c ->
            (containsb (bs "L") (mc_border c) = true <-> wants border (bs "L")) /\
            (containsb (bs "R") (mc_border c) = true <-> wants border (bs "R")) /\
            (containsb (bs "T") (mc_border c) = true <-> wants border (bs "T") /\ k = 0%nat) /\
            (containsb (bs "B") (mc_border c) = true <-> wants border (bs "B") /\ S k = length cells))).
Proof.
  intros utf8font rtl cw missing wmax txt border align s.
  rewrite run_eq. destruct (mc_borders border) as [[border' b] b2] eqn:Eb.
  pose proof (borders_meaning _ _ _ _ Eb) as (HB & HLR & HT & HT2 & HB1 & HB2).
  set (al := if beqb align [] then bs "J" else align). fold s.
  pose proof (mc_run_spec utf8font rtl cw missing wmax al border' b b2 s) as H. cbv zeta in H.
  destruct (in_table cw s) eqn:Et.
  - right. split.
    { unfold in_table in Et. rewrite forallb_forall in Et. intros c Hi Hn. specialize (Et c Hi).
      replace (c =? 10) with false in Et by lia. unfold known in Et. cbn in Et.
      destruct (at_ cw c); [discriminate|discriminate Et]. }
    destruct H as (cells & Hr & ls & z & Hg & Em & Hbo & Hco & Hal & Hla).
    exists cells. split; [exact Hr|]. split; [|split; [|split; [|split]]].
    + rewrite Em. exact (no_loss_snoc _ _ _ _ _ _ Hg).
    + intros Hch. rewrite Em. destruct (greedy_reassemble _ _ _ _ _ _ Hg) as (brk & Hl & E & HF).
      exists ls, z, brk. split; [now left|]. split; [exact Hl|]. split; [exact E|].
      assert (Hb : forall c, In (Some c) brk -> In c s).
      { intros c Hb. rewrite E. clear -Hb Hl. revert brk Hb Hl.
        induction ls as [|l ls IH]; intros [|b brk] Hb Hl; try discriminate; [destruct Hb|].
        cbn [combine reassemble]. injection Hl as Hl. destruct Hb as [->|Hb].
        - apply in_or_app. right. now left.
        - specialize (IH brk Hb Hl). destruct b; apply in_or_app; right; [now right|exact IH]. }
      apply Forall_forall. intros [c|] Hbc; [|exact I]. specialize (Hb c Hbc). specialize (Hch c Hb).
      assert (HFb : c = 10 \/ mc_sep c = true).
      { clear -HF Hbc. induction HF as [|ln b ls brk H HF IH]; [destruct Hbc|].
        destruct Hbc as [->|Hbc]; [exact H|now apply IH]. }
      destruct HFb as [->|HFb]; [now left|right]. unfold mc_sep in HFb. now rewrite Hch, orb_false_r in HFb.
    + intros c Hin. apply (greedy_lines _ _ _ _ _ _ Hg).
      assert (Hin' : In (mc_text c) (ls ++ [z])) by (rewrite <- Em; now apply in_map).
      apply in_app_or in Hin' as [?|[?|[]]]; auto.
    + exists ls, z. split; [exact Hg|exact Em].
    + intros k c Hk. specialize (Hbo k c Hk).
      assert (Hbord : bord border' b b2 (1 + Z.of_nat k) =
        if (k =? 0)%nat then b else if 0 <? Z.of_nat (length border') then b2 else b).
      { unfold bord. destruct k as [|k]; [reflexivity|]. replace (1 + Z.of_nat (S k) =? 1) with false by lia. reflexivity. }
      rewrite Hbord in Hbo. clear Hbord.
      assert (Hx : forall x, x = bs "L" \/ x = bs "R" -> (containsb x (mc_border c) = true <-> wants border x)).
      { intros x Hx. destruct (HLR x Hx) as [H1 H2]. rewrite Hbo.
        assert (Hx1 : exists y, x = [y]) by (destruct Hx as [->| ->]; eexists; reflexivity).
        destruct Hx1 as (y & ->). rewrite containsb1_app.
        rewrite tail_border by (destruct Hx as [Hx|Hx]; injection Hx as ->; lia).
        rewrite orb_false_r. destruct (k =? 0)%nat; assumption. }
      split; [now apply Hx; left|]. split; [now apply Hx; right|]. split.
      * change (bs "T") with [84] in *. rewrite Hbo, containsb1_app.
        rewrite tail_border by lia.
        rewrite orb_false_r. destruct k as [|k]; cbn [Nat.eqb].
        -- rewrite HT. intuition.
        -- rewrite HT2. split; [discriminate|]. intros [_ Hk0]. discriminate.
      * change (bs "B") with [66] in *. rewrite Hbo, containsb1_app.
        assert (HB0 : containsb [66] (if (k =? 0)%nat then b else if 0 <? Z.of_nat (length border') then b2 else b) = false)
          by (destruct (k =? 0)%nat; assumption).
        rewrite HB0.
        cbn [orb]. destruct (S k =? length cells)%nat eqn:Ek.
        -- apply Nat.eqb_eq in Ek. unfold last_bord. change (bs "B") with [66] in *.
           destruct (containsb [66] border') eqn:EB'.
           ++ rewrite <- HB. intuition.
           ++ rewrite <- HB. cbn. split; [discriminate|]. intros [Hf _]. exact Hf.
        -- apply Nat.eqb_neq in Ek. split; [discriminate|]. intros [_ Hf]. now elim Ek.
  - left. split.
    + unfold in_table in Et. assert (He : existsb (fun c => negb ((c =? 10) || known cw c)) s = true).
      { clear -Et. induction s as [|c s IH]; [discriminate|]. cbn [forallb existsb] in *.
        destruct ((c =? 10) || known cw c); [now apply IH|reflexivity]. }
      apply existsb_exists in He as (c & Hi & Hc). exists c. split; [exact Hi|].
      unfold known in Hc. destruct (c =? 10) eqn:E10; [discriminate|]. split; [lia|].
      destruct (at_ cw c); [discriminate|reflexivity].
    + exact H.
Qed.

Theorem C09_multi_cell_partial :
  forall (utf8font rtl : bool) (cw : list Z) (missing wmax : Z) (txt border align : bytes) (s : list Z),
    cell_text utf8font txt s ->
    ((exists c, In c s /\ c <> 10 /\ ~ (0 <= c < Z.of_nat (length cw))) /\
     exists cells, multi_cell utf8font rtl cw missing wmax txt border align = McErr cells)
    \/
    ((forall c, In c s -> c <> 10 -> 0 <= c < Z.of_nat (length cw)) /\
     exists cells, multi_cell utf8font rtl cw missing wmax txt border align = McDone cells
      /\ no_loss (fun c => (c =? 32) || is_chinese c) s (map mc_text cells)
      /\ ((forall c, In c s -> is_chinese c = false) -> no_loss (fun c => c =? 32) s (map mc_text cells))
      /\ (forall c, In c cells -> line_fits (cell_width cw missing) wmax (mc_text c) /\ ~ In 10 (mc_text c))
      /\ (exists ls z, greedy (fun c => (c =? 32) || is_chinese c) (cell_width cw missing) wmax s ls z
            /\ map mc_text cells = ls ++ [z])
      /\ (forall k c, nth_error cells k = Some c ->
            (containsb (bs "L") (mc_border c) = true <-> wants border (bs "L")) /\
            (containsb (bs "R") (mc_border c) = true <-> wants border (bs "R")) /\
            (containsb (bs "T") (mc_border c) = true <-> wants border (bs "T") /\ k = 0%nat) /\
            (containsb (bs "B") (mc_border c) = true <-> wants border (bs "B") /\ S k = length cells))).
Proof.
  intros utf8font rtl cw missing wmax txt border align s Hs. apply cell_text_unique in Hs. subst s.
  assert (A : forall c, at_ cw c = None <-> ~ (0 <= c < Z.of_nat (length cw))).
  { intros c. unfold at_. destruct (Z.ltb_spec c 0); [split; [intros _; lia|reflexivity]|]. rewrite nth_error_None. lia. }
  destruct (multi_cell_main utf8font rtl cw missing wmax txt border align) as [[(c & H1 & H2 & H3) H]|[H1 (cells & H2 & H3 & H4 & H5 & (ls & z & H6 & H7) & H8)]]; [left|right].
  - split; [|exact H]. exists c. split; [exact H1|]. split; [exact H2|]. now apply A.
  - split.
    { intros c Hi Hn. specialize (H1 c Hi Hn). rewrite A in H1. lia. }
    exists cells. split; [exact H2|]. split; [exact H3|]. split; [exact H4|]. split.
    { intros c Hi. destruct (H5 c Hi) as [F N]. split; [|exact N]. destruct F as [F|F]; [left|now right].
      now rewrite <- (width_ext (wdm cw missing)) by apply cell_width_eq. }
    split; [|exact H8]. exists ls, z. split; [|exact H7]. eapply greedy_ext; [|exact H6]. intros x _ _. split; [reflexivity|apply cell_width_eq].
Qed.
Print Assumptions C09_multi_cell_partial.

Example C09_ex : exists c1 c2 c3,
  multi_cell false false (repeat 500 256) 0 2000 (bs "ab cd" ++ [13; 10] ++ bs "ef") (bs "1") (bs "L") = McDone [c1; c2; c3]
  /\ (mc_text c1, mc_text c2, mc_text c3) = (bs "ab", bs "cd", bs "ef")
  /\ (mc_border c1, mc_border c2, mc_border c3) = (bs "LRT", bs "LR", bs "LRB").
Proof. eexists. eexists. eexists. split; [reflexivity|]. split; reflexivity. Qed.
Example C09_err : exists cells, multi_cell true false (repeat 500 256) 0 2000 (utf8 [97; 300]) [] [] = McErr cells.
Proof. eexists. reflexivity. Qed.

(** ** C53: justification.  Full statement: a justified line (broken
    automatically, with at least one gap) is stretched exactly to the width: the
    extra space given to all its gaps together is the width left over. *)
Definition C53_statement : Prop :=
  forall utf8font rtl cw missing wmax txt border cells c q d,
    multi_cell utf8font rtl cw missing wmax txt border (bs "J") = McDone cells ->
    In c cells -> mc_ws c = Spacing q d -> width (cell_width cw missing) (mc_text c) + q * 1000 = wmax.
Theorem C53_justify_refuted : ~ C53_statement.
Proof.
  intros H.
  specialize (H false false (repeat 500 256) 0 2900 (bs "aa bb cc") []).
  assert (E : exists c1 c2, multi_cell false false (repeat 500 256) 0 2900 (bs "aa bb cc") [] (bs "J") = McDone [c1; c2]
     /\ mc_text c1 = bs "aa bb" /\ mc_ws c1 = Spacing 0 1).
  { eexists. eexists. split; [vm_compute; reflexivity|]. split; reflexivity. }
  destruct E as (c1 & c2 & E & E1 & E2). specialize (H _ c1 0 1 E (or_introl eq_refl) E2).
  rewrite E1 in H. vm_compute in H. discriminate.
Qed.
Print Assumptions C53_justify_refuted.

(** What holds: the divisor is the number of gaps of the line, the stretch is a
    whole number of ems, the line is never made wider than the cell and falls
    short by less than one em. *)
Theorem C53_justify_partial :
  forall utf8font rtl cw missing wmax txt border align cells c,
    multi_cell utf8font rtl cw missing wmax txt border align = McDone cells ->
    In c cells ->
    match mc_ws c with
    | Spacing q d =>
        (align = bs "J" \/ align = []) /\ d = Z.of_nat (length (filter (fun x => (x =? 32) || is_chinese x) (mc_text c)))
        /\ 1 <= d
        /\ let lw := width (cell_width cw missing) (mc_text c) in
           (lw <= wmax -> 0 <= q /\ lw + q * 1000 <= wmax < lw + q * 1000 + 1000)
    | NoSpacing => True
    end.
Proof.
  intros utf8font rtl cw missing wmax txt border align cells c Hr Hin. rewrite run_eq in Hr.
  destruct (mc_borders border) as [[border' b] b2].
  set (al := if beqb align [] then bs "J" else align) in *.
  pose proof (mc_run_spec utf8font rtl cw missing wmax al border' b b2 (mc_text_of utf8font txt)) as H. cbv zeta in H.
  destruct (in_table cw (mc_text_of utf8font txt)).
  2:{ destruct H as (new & E). rewrite E in Hr. discriminate. }
  destruct H as (new & E & ls & z & _ & _ & _ & Hco & _). rewrite E in Hr. injection Hr as ->.
  rewrite Forall_forall in Hco. destruct (Hco c Hin) as [Hws _]. rewrite Hws.
  destruct (mc_unfit c && beqb al (bs "J") && (1 <=? count_sep (mc_text c))) eqn:Ec; [|exact I].
  apply andb_true_iff in Ec as [Ec E1]. apply andb_true_iff in Ec as [_ EJ].
  apply beqb_eq in EJ. split.
  { unfold al in EJ. destruct (beqb align []) eqn:Ea; [right; now apply beqb_eq in Ea|left; exact EJ]. }
  split; [reflexivity|]. split; [lia|]. cbv zeta.
  rewrite <- (width_ext (wdm cw missing)) by apply cell_width_eq. intros Hle.
  pose proof (Z.quot_rem' (wmax - width (wdm cw missing) (mc_text c)) 1000).
  pose proof (Z.rem_bound_pos (wmax - width (wdm cw missing) (mc_text c)) 1000).
  pose proof (Z.quot_pos (wmax - width (wdm cw missing) (mc_text c)) 1000). lia.
Qed.
Print Assumptions C53_justify_partial.
Example C53_ex : exists c1 c2, multi_cell false false (repeat 500 256) 0 4100 (bs "aa bb ccccc") [] (bs "J") = McDone [c1; c2]
     /\ mc_text c1 = bs "aa bb" /\ mc_ws c1 = Spacing 1 1.
Proof. eexists. eexists. split; [vm_compute; reflexivity|]. split; reflexivity. Qed.

(** ** C54: SplitText predicts the lines MultiCell prints *)
Definition C54_statement : Prop :=
  forall cw missing wmax (t : list Z) lines cells,
    Forall scalar t ->
    split_text cw wmax (utf8 t) = Ret lines ->
    multi_cell true false cw missing wmax (utf8 t) [] (bs "L") = McDone cells ->
    lines = map (fun c => utf8 (mc_text c)) cells.
(** a tab is a break opportunity for SplitText only *)
Theorem C54_prediction_refuted : ~ C54_statement.
Proof.
  intros H. specialize (H (repeat 500 256) 0 2000 [97; 97; 9; 98; 98]).
  eassert (E : multi_cell true false (repeat 500 256) 0 2000 (utf8 [97; 97; 9; 98; 98]) [] (bs "L") = McDone _)
    by (vm_compute; reflexivity).
  specialize (H [bs "aa"; bs "bb"] _ ltac:(repeat constructor; unfold scalar; lia) eq_refl E).
  vm_compute in H. discriminate.
Qed.
Print Assumptions C54_prediction_refuted.

(** What holds: for texts whose only white space is spaces and newlines, without
    carriage returns, and glyph widths that are not the special values 0 and
    65535, the lines agree, except that MultiCell prints an empty last line
    where SplitText returns none. *)
Theorem C54_prediction_partial :
  forall cw missing wmax (t : list Z) lines cells border align rtl,
    Forall scalar t ->
    (forall c, In c t -> c = 10 \/ (c <> 13 /\ (is_space c = true -> c = 32) /\
       exists w, at_ cw c = Some w /\ w <> 0 /\ w <> 65535)) ->
    (In 10 t -> at_ cw 10 <> None) ->
    split_text cw wmax (utf8 t) = Ret lines ->
    multi_cell true rtl cw missing wmax (utf8 t) border align = McDone cells ->
    lines = map (fun c => utf8 (mc_text c)) cells \/
    exists cells' c, cells = cells' ++ [c] /\ mc_text c = [] /\ lines = map (fun c => utf8 (mc_text c)) cells'.
Proof.
  intros cw missing wmax t lines cells border align rtl Ht Hw H10 Hst Hmc.
  destruct (trim_nl_spec t) as (k & Ek & Hs).
  destruct (C08_split_text_partial cw wmax t (trim_nl t) Ht (ex_intro _ k Ek) Hs) as (lines' & Hst' & _ & _ & _ & _ & ls & z & Hg & El).
  { intros c Hi. assert (Hne : at_ cw c <> None).
    { destruct (Hw c Hi) as [->|(_ & _ & w & E & _)]; [now apply H10|congruence]. }
    unfold at_ in Hne. destruct (c <? 0) eqn:E0; [now elim Hne|]. apply nth_error_Some in Hne. lia. }
  rewrite Hst in Hst'. injection Hst' as ->.
  destruct (multi_cell_main true rtl cw missing wmax (utf8 t) border align)
    as [[_ (cells' & E)]|[_ (cells' & E & _ & _ & _ & (ls' & z' & Hg' & El') & _)]]; rewrite E in Hmc; [discriminate|].
  injection Hmc as ->.
  assert (Et : mc_text_of true (utf8 t) = trim_nl t).
  { unfold mc_text_of. rewrite strip_cr.
    replace (filter (fun c => negb (c =? 13)) (utf8 t)) with (utf8 t); [now rewrite go_runes_utf8|].
    symmetry. assert (Hn13 : ~ In 13 (utf8 t)).
    { intros Hi. unfold utf8 in Hi. apply in_flat_map in Hi as (c & Hi & Hc).
      assert (Hc13 : c = 13).
      { rewrite Forall_forall in Ht. specialize (Ht c Hi). unfold utf8_1 in Hc. unfold scalar in Ht.
        repeat match type of Hc with context [if ?b then _ else _] => destruct b eqn:? end; cbn [In] in Hc; lia. }
      subst c. destruct (Hw 13 Hi) as [?|(? & _)]; [discriminate|congruence]. }
    clear -Hn13. induction (utf8 t) as [|x l IH]; [reflexivity|]. cbn [filter].
    destruct (x =? 13) eqn:Ex; [exfalso; apply Hn13; left; lia|]. cbn [negb]. f_equal. apply IH.
    intros Hi. apply Hn13. now right. }
  rewrite Et in Hg'. assert (Hgg : ls = ls' /\ z = z').
  { eapply greedy_det; [|exact Hg']. eapply greedy_ext; [|exact Hg].
    intros c Hi Hn. assert (Hit : In c t) by (rewrite Ek; apply in_or_app; now left).
    destruct (Hw c Hit) as [?|(_ & Hsp & w & Ew & Hw0 & Hw6)]; [contradiction|].
    split.
    - unfold st_sep. destruct (is_space c) eqn:Esp; [rewrite (Hsp eq_refl); reflexivity|].
      cbn [orb]. destruct (c =? 32) eqn:E32; [|reflexivity]. apply Z.eqb_eq in E32. subst c. discriminate.
    - unfold wd, wdm, mc_width. rewrite Ew. replace (w =? 0) with false by lia. now replace (w =? 65535) with false by lia. }
  destruct Hgg as [-> ->]. subst lines'.
  destruct z' as [|d z'].
  - right. destruct (exists_last (l := cells)) as (cs & c & Ec).
    { intros ->. destruct ls'; discriminate. }
    exists cs, c. subst cells. rewrite map_app in El'. cbn in El'. apply app_inj_tail in El' as [El' Ec].
    split; [reflexivity|]. split; [exact Ec|]. rewrite <- El', map_map. reflexivity.
  - left. rewrite <- El', map_map. reflexivity.
Qed.
Print Assumptions C54_prediction_partial.
Example C54_ex : exists cells,
  multi_cell true false (repeat 500 256) 0 1500 (utf8 [97; 32; 233; 98; 99; 100]) [] (bs "L") = McDone cells
  /\ split_text (repeat 500 256) 1500 (utf8 [97; 32; 233; 98; 99; 100]) = Ret (map (fun c => utf8 (mc_text c)) cells)
  /\ length cells = 3%nat.
Proof. eexists. split; [vm_compute; reflexivity|]. split; reflexivity. Qed.

(** ** C10: Write.  [wroom] is the room left on the current line, [wfull] that of
    a full line, [right] says that the cursor is right of the left margin. *)
Definition printed (evs : list wevent) : list (list Z) :=
  flat_map (fun e => match e with WLine t => [t] | WLast t _ => [t] | _ => [] end) evs.

(** Full statement: no loss, and every chunk fits. *)
Definition C10_statement : Prop :=
  forall (utf8font : bool) cw right wroom wfull txt evs,
    write utf8font cw right wroom wfull txt = Ret evs ->
    no_loss (fun c => c =? 32)
      (let t := replace_all [13] [] txt in if utf8font then go_runes t else t) (printed evs)
    /\ (forall ln, In ln (printed evs) -> line_fits (wd cw) (Z.max wroom wfull) ln).

(** When the cursor is barely right of the margin, the chunk printed after moving
    to the next line can be too wide: the glyph that overflowed the current line
    is not checked against the room of the new line. *)
Theorem C10_write_refuted : ~ C10_statement.
Proof.
  intros H. specialize (H false (repeat 600 256) true 1100 1150 (bs "ab") [WMove; WLast (bs "ab") 1200] eq_refl).
  destruct H as [_ H]. destruct (H (bs "ab") (or_introl eq_refl)) as [H1|H1]; vm_compute in H1; [now elim H1|discriminate].
Qed.
Print Assumptions C10_write_refuted.

Lemma whole_no_loss cw s evs : whole cw s evs -> no_loss (fun c => c =? 32) s (printed evs).
Proof.
  intros (ls & z & brk & E & Hl & HF & Hfil).
  assert (Hp : printed evs = printed (filter (fun e => match e with WMove => false | _ => true end) evs)).
  { clear. unfold printed. induction evs as [|e evs IH]; [reflexivity|]. destruct e; cbn [filter flat_map]; rewrite IH; reflexivity. }
  assert (Hm : printed (map WLine ls) = ls).
  { clear. unfold printed. induction ls as [|l ls IH]; [reflexivity|]. cbn [map flat_map app]. now rewrite IH. }
  exists ls, z, brk. split; [|split; [exact Hl|split; [exact E|]]].
  - rewrite Hp, Hfil. unfold printed. rewrite flat_map_app. fold (printed (map WLine ls)). rewrite Hm.
    destruct z; [right|left]; cbn; rewrite ?app_nil_r; auto.
  - eapply Forall_impl; [|exact HF]. intros b [-> | [-> | ->]]; auto.
Qed.

Lemma render_lines w ls z ln : In ln (printed (render w ls z)) -> In ln ls \/ ln = z.
Proof.
  unfold render, printed. rewrite flat_map_app. intros H. apply in_app_or in H as [H|H].
  - left. clear -H. induction ls as [|l ls IH]; [destruct H|]. cbn in H. destruct H as [->|H]; [now left|right; now apply IH].
  - destruct z; [destruct H|]. destruct H as [<-|[]]. now right.
Qed.

Lemma line_fits_mono w a b ln : a <= b -> line_fits w a ln -> line_fits w b ln.
Proof. intros H [H'|H']; [left; lia|now right]. Qed.

(** What holds: Write terminates and prints every character (spaces and
    newlines at breaks excepted), whatever the widths; when the current line
    plus one glyph is no longer than a full line (always so when starting at the
    left margin), every chunk fits its line. *)
Theorem C10_write_partial :
  forall (utf8font : bool) cw right wroom wfull txt s,
    s = (let t := replace_all [13] [] txt in if utf8font then go_runes t else t) ->
    (forall c, In c s -> c <> 10 -> at_ cw c <> None) ->
    ~ (utf8font = true /\ replace_all [13] [] txt = [32]) ->
    exists evs, write utf8font cw right wroom wfull txt = Ret evs
      /\ no_loss (fun c => c =? 32) s (printed evs)
      /\ ((right = true -> wroom <= wfull /\ forall c, In c s -> c = 10 \/ wd cw c + Z.max 0 wroom <= wfull) ->
          flow (wd cw) right wroom wfull s evs /\
          (forall ln, In ln (printed evs) -> line_fits (wd cw) (Z.max wroom wfull) ln)).
Proof.
  intros utf8font cw right wroom wfull txt s Es Hc Hsp.
  assert (Ew : write utf8font cw right wroom wfull txt = write_loop cw wfull s (split_fuel s) right wroom 0 0 (-1) 0 1 []).
  { unfold write. cbv zeta in Es. rewrite <- Es.
    destruct (utf8font && (Z.of_nat (length s) =? 1) && beqb (replace_all [13] [] txt) [32]) eqn:E; [|reflexivity].
    exfalso. apply andb_true_iff in E as [E E2]. apply andb_true_iff in E as [E _].
    apply Hsp. split; [exact E|]. now apply beqb_eq in E2. }
  destruct (write_run_whole cw wfull s) with (right := right) (wm := wroom) as (evs & Hw & Hr).
  { apply Forall_forall. intros c Hi. destruct (Z.eq_dec c 10); [now left|right]. now apply Hc. }
  exists evs. rewrite Ew. split; [exact Hr|]. split; [now apply (whole_no_loss cw)|].
  intros Hroom.
  destruct (write_run_flow cw wfull s) with (right := right) (wm := wroom) as (evs' & Hf & Hr').
  { apply Forall_forall. intros c Hi. destruct (Z.eq_dec c 10); [now left|right]. now apply Hc. }
  { intros Hrt. apply Forall_forall. intros c Hi. destruct (proj2 (Hroom Hrt) c Hi); [now left|right; lia]. }
  { intros Hrt. now apply Hroom. }
  rewrite Hr in Hr'. injection Hr' as <-. split; [exact Hf|].
  intros ln Hln.
  assert (Hone : forall p, fits (wd cw) wroom p -> line_fits (wd cw) (Z.max wroom wfull) p).
  { intros p Hp. left. apply fits_width in Hp. lia. }
  assert (Hgr : forall t ls z, greedy sp (wd cw) wfull t ls z -> In ln (printed (render (wd cw) ls z)) ->
                line_fits (wd cw) (Z.max wroom wfull) ln).
  { intros t ls z Hg Hin. apply render_lines in Hin.
    apply (line_fits_mono _ wfull); [lia|]. now apply (greedy_lines _ _ _ _ _ _ Hg). }
  destruct Hf as [t Hn Hf|line rest ls z Hn Hf Hg|line c word rest ls z Hcs Hw' Hn Hf Ho Hg
     |line d rest ls z Hrt Hs Hn Hf Ho Hg|line d rest ls z Hrt Hne Hs Hn Hf Ho Hg|d rest ls z Hrt Hs Hn Ho Hg].
  - unfold render in Hln. cbn [map app] in Hln. destruct t; [destruct Hln|]. destruct Hln as [<-|[]]. now apply Hone.
  - destruct Hln as [<-|Hln]; [now apply Hone|eapply Hgr; eauto].
  - destruct Hln as [<-|Hln]; [|eapply Hgr; eauto]. apply Hone. rewrite removelast_app in Hf by discriminate.
    now apply fits_prefix in Hf.
  - eapply Hgr; eauto.
  - destruct Hln as [<-|Hln]; [now apply Hone|eapply Hgr; eauto].
  - destruct Hln as [<-|Hln]; [now right|eapply Hgr; eauto].
Qed.
Print Assumptions C10_write_partial.
Example C10_ex : write false (repeat 500 256) true 1000 3000 (bs "abcd efg" ++ [10] ++ bs "h") =
  Ret [WMove; WLine (bs "abcd"); WLine (bs "efg"); WLast (bs "h") 500]
  /\ (forall c, In c (bs "abcd efg" ++ [10] ++ bs "h") -> c = 10 \/ wd (repeat 500 256) c + Z.max 0 1000 <= 3000).
Proof.
  split; [reflexivity|]. intros c Hc. right. cbn in Hc.
  repeat (destruct Hc as [<-|Hc]; [vm_compute; discriminate|]). destruct Hc.
Qed.

(** ** C11: string width *)
Definition C11_statement : Prop :=
  forall (utf8font : bool) cw missing (a b : bytes),
    (utf8font = false -> length cw = 256%nat) ->
    Forall is_byte a -> Forall is_byte b ->
    exists wa wb, string_symbol_width utf8font cw missing a = Ret wa
      /\ string_symbol_width utf8font cw missing b = Ret wb
      /\ string_symbol_width utf8font cw missing (a ++ b) = Ret (wa + wb).
(** a UTF-8 font whose table ends exactly at the character: index out of range *)
Theorem C11_width_refuted : ~ C11_statement.
Proof.
  intros H. specialize (H true (repeat 500 65) 0 (bs "A") []). destruct H as (wa & wb & E & _).
  { discriminate. }
  { apply Forall_forall. intros c [<-|[]]. unfold is_byte. vm_compute. split; discriminate. }
  { apply Forall_nil. }
  vm_compute in E. discriminate.
Qed.
Print Assumptions C11_width_refuted.

(** glyph width of a character in a UTF-8 font *)
Definition glyph (cw : list Z) (missing c : Z) : Z :=
  match at_ cw c with
  | Some w => if 0 <? w then (if w =? 65535 then 0 else w) else if missing =? 0 then 500 else missing
  | None => if missing =? 0 then 500 else missing
  end.

Lemma symw_runes_sum cw missing t w :
  (forall c, In c t -> 0 <= c /\ c <> Z.of_nat (length cw)) ->
  symw_runes cw missing t w = Ret (w + width (glyph cw missing) t).
Proof.
  revert w. induction t as [|c t IH]; intros w H; [cbn; f_equal; lia|].
  cbn [symw_runes]. destruct (H c (or_introl eq_refl)) as [H0 Hl].
  assert (E : symw_rune cw missing c = Ret (glyph cw missing c)).
  { unfold symw_rune, glyph, at_. replace (c <? 0) with false by lia.
    destruct (c <=? Z.of_nat (length cw)) eqn:Ec.
    - destruct (nth_error cw (Z.to_nat c)) as [w0|] eqn:En.
      + destruct (0 <? w0); [|reflexivity]. reflexivity.
      + apply nth_error_None in En. lia.
    - replace (nth_error cw (Z.to_nat c)) with (@None Z); [reflexivity|]. symmetry. apply nth_error_None. lia. }
  rewrite E. cbn [obind]. rewrite IH by (intros; apply H; now right). unfold width. cbn [fold_right]. f_equal. lia.
Qed.

Lemma symw_bytes_sum cw t w :
  (forall c, In c t -> 0 < c < Z.of_nat (length cw)) -> symw_bytes cw t w = Ret (w + width (wd cw) t).
Proof.
  revert w. induction t as [|c t IH]; intros w H; [cbn; f_equal; lia|].
  cbn [symw_bytes]. pose proof (H c (or_introl eq_refl)) as Hc. replace (c =? 0) with false by lia.
  unfold width. cbn [fold_right]. fold (width (wd cw) t). unfold wd at 1.
  destruct (at_ cw c) eqn:E.
  - rewrite IH by (intros; apply H; now right). f_equal. lia.
  - unfold at_ in E. replace (c <? 0) with false in E by lia. apply nth_error_None in E. lia.
Qed.

(** What holds: in a single-byte font (256 widths) and a text without NUL bytes,
    and in a UTF-8 font for valid text not containing the character numbered
    exactly one past the table, the width is the sum of the glyph widths, hence
    additive; it stops at the first NUL byte of a single-byte text. *)
Theorem C11_width_partial :
  (forall cw missing (a : bytes), length cw = 256%nat -> Forall is_byte a -> ~ In 0 a ->
     string_symbol_width false cw missing a = Ret (width (wd cw) a))
  /\ (forall cw missing (a rest : bytes), length cw = 256%nat -> Forall is_byte a -> ~ In 0 a ->
     string_symbol_width false cw missing (a ++ 0 :: rest) = Ret (width (wd cw) a))
  /\ (forall cw missing (t : list Z), Forall scalar t -> ~ In (Z.of_nat (length cw)) t ->
     string_symbol_width true cw missing (utf8 t) = Ret (width (glyph cw missing) t))
  /\ (forall f a b, width f (a ++ b) = width f a + width f b).
Proof.
  split; [|split; [|split]].
  - intros cw missing a Hl Ha H0. unfold string_symbol_width. rewrite symw_bytes_sum; [reflexivity|].
    intros c Hc. rewrite Forall_forall in Ha. specialize (Ha c Hc). unfold is_byte in Ha.
    assert (c <> 0) by (intros ->; contradiction). lia.
  - intros cw missing a rest Hl Ha H0. unfold string_symbol_width.
    assert (Hgen : forall w, symw_bytes cw (a ++ 0 :: rest) w = Ret (w + width (wd cw) a)).
    { clear -Hl Ha H0. induction Ha as [|c a Hc Ha IH]; intros w; [cbn; f_equal; lia|].
      cbn [app symw_bytes]. assert (c <> 0) by (intros ->; apply H0; now left). replace (c =? 0) with false by lia.
      unfold width. cbn [fold_right]. fold (width (wd cw) a). unfold wd at 1. destruct (at_ cw c) eqn:E.
      - rewrite IH by (intros Hi; apply H0; now right). f_equal. lia.
      - unfold is_byte in Hc. unfold at_ in E. replace (c <? 0) with false in E by lia. apply nth_error_None in E. lia. }
    apply (Hgen 0).
  - intros cw missing t Ht Hn. unfold string_symbol_width. rewrite go_runes_utf8 by exact Ht.
    rewrite symw_runes_sum; [reflexivity|]. intros c Hc. rewrite Forall_forall in Ht. specialize (Ht c Hc).
    split; [unfold scalar in Ht; lia|]. intros ->. contradiction.
  - exact width_app.
Qed.
Print Assumptions C11_width_partial.
Example C11_ex : string_symbol_width true (repeat 500 256) 0 (utf8 [65; 8364]) = Ret 1000
  /\ string_symbol_width false (repeat 500 256) 0 (bs "A" ++ [0] ++ bs "B") = Ret 500.
Proof. split; reflexivity. Qed.
