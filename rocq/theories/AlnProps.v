(** C85 Aligned flowing text (WriteAligned). *)
From Coq Require Import QArith Qround Lqa String.
From Verif Require Import Base TextModel TextSpec TextProofs LineModel LineSpec LineProofs GreedyProofs WriteModel WriteProofs LineProps AlnModel.
Open Scope Z_scope.
Notation length := List.length.

(** ** Tools *)
Lemma width_app w a b : width w (a ++ b)%list = width w a + width w b.
Proof. unfold width. induction a as [|c a IH]; cbn [app fold_right]; [lia|]. rewrite IH. lia. Qed.
Lemma width_nonneg w (p : list Z) : (forall c, In c p -> 0 <= w c) -> 0 <= width w p.
Proof.
  induction p as [|c p IH]; intros H; [cbn; lia|]. change (width w (c :: p)) with (w c + width w p). specialize (H c (or_introl eq_refl)) as Hc.
  assert (0 <= width w p) by (apply IH; intros x Hx; apply H; now right). lia.
Qed.
Lemma greedy_one sep w wmax t ls z : (forall c, In c t -> 0 <= w c) -> ~ In 10 t -> width w t <= wmax -> greedy sep w wmax t ls z -> ls = [] /\ z = t.
Proof.
  intros Hn Hnl Hw Hg. destruct Hg as [t H1 H2|line rest ls z H1 H2 H3|line c word rest ls z H1 H2 H3 H4 H5 H6|line x rest ls z H1 H2 H3 H4 H5 H6|x rest ls z H1 H2 H3 H4].
  - now split.
  - exfalso. apply Hnl, in_or_app. right. now left.
  - exfalso. assert (E : (line ++ c :: word ++ rest = (line ++ c :: word) ++ rest)%list) by (rewrite <- app_assoc; reflexivity). rewrite E, width_app in Hw.
    assert (0 <= width w rest). { apply width_nonneg. intros y Hy. apply Hn. rewrite E. apply in_or_app. now right. } lia.
  - exfalso. assert (E : (line ++ x :: rest = (line ++ [x]) ++ rest)%list) by (rewrite <- app_assoc; reflexivity). rewrite E, width_app in Hw.
    assert (0 <= width w rest). { apply width_nonneg. intros y Hy. apply Hn. rewrite E. apply in_or_app. now right. } lia.
  - exfalso. change (width w (x :: rest)) with (w x + width w rest) in Hw.
    assert (0 <= width w rest). { apply width_nonneg. intros y Hy. apply Hn. now right. } lia.
Qed.

Definition simple_text (cw : list Z) (t : bytes) : Prop :=
  length cw = 256%nat /\ Forall is_byte t /\ ~ In 0 t /\ ~ In 10 t /\ ~ In 13 t /\ t <> [] /\ (forall c, In c t -> 0 <= wd cw c).

Lemma no_cr t : ~ In 13 t -> replace_all [13] [] t = t.
Proof.
  intros H. rewrite strip_cr. induction t as [|c t IH]; [reflexivity|]. cbn [filter]. 
  assert (c <> 13) by (intros ->; apply H; now left). replace (c =? 13) with false by lia. cbn [negb]. f_equal. apply IH. intros X. apply H. now right.
Qed.
Lemma split_one cw wmax t : simple_text cw t -> width (wd cw) t <= wmax -> split_lines cw wmax t = Ret [t].
Proof.
  intros (Hl & Hb & H0 & Hnl & Hcr & Hne & Hn) Hw.
  destruct (C07_split_lines cw wmax t t) as (lines & E & _ & _ & ls & z & Hg & El).
  { exists 0%nat. split; [|intros p Hp; apply Hnl; rewrite Hp; apply in_or_app; right; now left].
    rewrite app_nil_r. rewrite <- strip_cr. now apply no_cr. }
  { intros c Hc. rewrite Hl. rewrite Forall_forall in Hb. apply Hb in Hc. unfold is_byte in Hc. lia. }
  destruct (greedy_one _ _ _ _ _ _ Hn Hnl Hw Hg) as (-> & ->). rewrite E, El. destruct t; [congruence|reflexivity].
Qed.
Lemma firstn_snoc {A} (l : list A) n x : nth_error l n = Some x -> firstn (S n) l = (firstn n l ++ [x])%list.
Proof.
  revert n. induction l as [|y l IH]; intros [|n] H; try discriminate H; cbn in *; [now injection H as ->|]. f_equal. now apply IH.
Qed.
Lemma write_one cw wfull t right wm : (forall c, In c t -> at_ cw c = Some (wd cw c) /\ 0 <= wd cw c) -> ~ In 10 t -> t <> [] -> width (wd cw) t <= wm ->
  forall n i sep fuel, (i + n = length t)%nat -> (n < fuel)%nat ->
    write_loop cw wfull t fuel right wm (Z.of_nat i) 0 sep (width (wd cw) (firstn i t)) 1 [] = Ret [WLast t (width (wd cw) t)].
Proof.
  intros Hc Hnl Hne Hw. induction n as [|n IH]; intros i sep fuel Hi Hf; (destruct fuel as [|fuel]; [lia|]); cbn [write_loop].
  - replace i with (length t) by lia. replace (Z.of_nat (length t) <? Z.of_nat (length t)) with false by lia.
    assert (0 < length t)%nat by (destruct t; [congruence|cbn; lia]). replace (Z.of_nat (length t) =? 0) with false by lia.
    unfold slice. replace ((0 <=? 0) && (0 <=? Z.of_nat (length t)) && (Z.of_nat (length t) <=? Z.of_nat (length t))) with true by lia.
    rewrite Z.sub_0_r, Nat2Z.id. cbn [skipn Z.to_nat]. rewrite firstn_all. reflexivity.
  - replace (Z.of_nat i <? Z.of_nat (length t)) with true by lia. unfold at_ at 1. replace (Z.of_nat i <? 0) with false by lia. rewrite Nat2Z.id.
    destruct (nth_error t i) as [c|] eqn:En. 2:{ apply nth_error_None in En. lia. }
    assert (Hin : In c t) by (eapply nth_error_In; eauto). assert (c <> 10) by (intros ->; contradiction). replace (c =? 10) with false by lia.
    destruct (Hc c Hin) as [Ec Hp]. rewrite Ec.
    assert (Ew : width (wd cw) (firstn i t) + wd cw c = width (wd cw) (firstn (S i) t)).
    { rewrite (firstn_snoc t i c En), width_app. cbn. lia. }
    rewrite Ew. assert (Hle : width (wd cw) (firstn (S i) t) <= width (wd cw) t).
    { rewrite <- (firstn_skipn (S i) t) at 2. rewrite width_app. assert (0 <= width (wd cw) (skipn (S i) t)); [|lia].
      apply width_nonneg. intros x Hx. apply Hc. rewrite <- (firstn_skipn (S i) t). apply in_or_app. now right. }
    replace (wm <? width (wd cw) (firstn (S i) t)) with false by lia.
    replace (Z.of_nat i + 1) with (Z.of_nat (S i)) by lia. apply IH; lia.
Qed.
Lemma write_simple cw right wroom wfull t : simple_text cw t -> width (wd cw) t <= wroom ->
  write false cw right wroom wfull t = Ret [WLast t (width (wd cw) t)].
Proof.
  intros (Hl & Hb & H0 & Hnl & Hcr & Hne & Hn) Hw. unfold write. rewrite no_cr by exact Hcr. cbn [andb].
  apply (write_one cw wfull t right wroom) with (n := length t) (i := 0%nat); auto.
  - intros c Hc. split; [|now apply Hn]. unfold wd. destruct (at_ cw c) eqn:E; [reflexivity|]. exfalso. rewrite Forall_forall in Hb. specialize (Hb c Hc). unfold is_byte in Hb.
    unfold at_ in E. replace (c <? 0) with false in E by lia. apply nth_error_None in E. lia.
  - unfold split_fuel. lia.
Qed.
Lemma simple_width cw missing fs t : simple_text cw t -> text_width false cw missing fs t = Ret (inject_Z (width (wd cw) t) * fs / 1000)%Q.
Proof.
  intros (Hl & Hb & H0 & _). unfold text_width. destruct C11_width_partial as (H & _). rewrite H by auto. reflexivity.
Qed.

(** ** Room *)
Lemma floor_ge (q : Q) (n : Z) : (inject_Z n <= q)%Q -> n <= Qfloor q.
Proof. intros H. apply Qfloor_resp_le in H. now rewrite Qfloor_Z in H. Qed.
Lemma ceil_ge (q : Q) (n : Z) : (inject_Z n <= q)%Q -> n <= Qceiling q.
Proof. intros H. rewrite Zle_Qle. eapply Qle_trans; [exact H|]. apply Qle_ceiling. Qed.
Lemma glyphs_le (n : Z) (fs x : Q) : (0 < fs)%Q -> (inject_Z n * fs / 1000 <= x)%Q -> (inject_Z n <= x * 1000 / fs)%Q.
Proof.
  intros Hf H. apply Qle_shift_div_l; [exact Hf|]. setoid_replace (inject_Z n * fs)%Q with (inject_Z n * fs / 1000 * 1000)%Q by (field; discriminate). nra.
Qed.
Lemma Qltb_true a b : Qltb a b = true <-> (a < b)%Q.
Proof.
  unfold Qltb. rewrite negb_true_iff. split; intros H.
  - apply Qnot_le_lt. intros X. apply Qle_bool_iff in X. congruence.
  - destruct (Qle_bool b a) eqn:X; [|reflexivity]. apply Qle_bool_iff in X. exfalso. apply (Qlt_not_le _ _ H X).
Qed.

(** ** One line of text *)
(** the width of a text *)
Definition line_width (cw : list Z) (fs : Q) (t : bytes) : Q := (inject_Z (width (wd cw) t) * fs / 1000)%Q.

(** the cursor is at the left margin of a page, and the box lies between the margins *)
Record box (g : flow) (width : Q) : Prop := {
  bx_page : fl_page g = true; bx_x : (fl_x g == fl_lm g)%Q; bx_fs : (0 < fl_fs g)%Q; bx_cm : (0 <= fl_cm g)%Q;
  bx_in : (fl_lm g + width <= fl_w g - fl_rm g)%Q; bx_pos : ~ (width == 0)%Q }.

Definition drawn_at (r : outcome (list chunk * flow)) (x y : Q) (t : bytes) (g' : flow -> Prop) : Prop :=
  exists c g2, r = Ret ([c], g2) /\ (ch_x c == x)%Q /\ ch_y c = y /\ ch_text c = t /\ g' g2.
Definition same_but_x (g g2 : flow) : Prop :=
  fl_w g2 = fl_w g /\ fl_lm g2 = fl_lm g /\ fl_rm g2 = fl_rm g /\ fl_cm g2 = fl_cm g /\ fl_fs g2 = fl_fs g /\ fl_y g2 = fl_y g /\ fl_page g2 = fl_page g.

Theorem C85_one_line_partial :
  forall (cw : list Z) (missing : Z) (width h : Q) (t align : bytes) (g : flow),
    simple_text cw t -> box g width ->
    let lw := line_width cw (fl_fs g) t in
    (lw <= width - (if beqb align (bs "C") then 4 else if beqb align (bs "R") then 201 # 100 else 2) * fl_cm g)%Q ->
    drawn_at (write_aligned false cw missing width h t align g)
      (if beqb align (bs "C") then fl_lm g + fl_cm g + (width - lw) / 2
       else if beqb align (bs "R") then fl_lm g + width - lw - (101 # 100) * fl_cm g
       else fl_lm g + fl_cm g)%Q (fl_y g) t (same_but_x g).
Proof.
  intros cw missing width h t align g Ht [Hp Hx Hfs Hcm Hin Hnz] lw Hlw. unfold write_aligned.
  assert (Ez : Qeq_bool width 0 = false). { destruct (Qeq_bool width 0) eqn:E; [|reflexivity]. apply Qeq_bool_iff in E. contradiction. }
  rewrite Ez. cbv zeta. rewrite (split_one cw _ t Ht).
  2:{ apply ceil_ge, glyphs_le; [exact Hfs|]. fold (line_width cw (fl_fs g) t). fold lw. destruct (beqb align (bs "C")); [lra|]. destruct (beqb align (bs "R")); lra. }
  cbn [obind aligned_lines]. unfold aligned_line. rewrite (simple_width cw missing _ t Ht). fold (line_width cw (fl_fs g) t). fold lw. cbn [obind].
  assert (Hlw0 : (0 <= lw)%Q).
  { unfold lw, line_width. apply Qle_shift_div_l; [reflexivity|]. rewrite Qmult_0_l. apply Qmult_le_0_compat; [|lra].
    change 0%Q with (inject_Z 0). rewrite <- Zle_Qle. apply width_nonneg. apply Ht. }
  (* the writing of the line from a cursor with enough room *)
  assert (G : forall g1, fl_fs g1 = fl_fs g -> fl_cm g1 = fl_cm g -> (lw <= fl_w g1 - fl_rm g1 - fl_x g1 - 2 * fl_cm g1)%Q ->
     exists c, write_flow false cw missing h t g1 = Ret ([c], at_xy (fl_x g1 + inject_Z (LineSpec.width (wd cw) t) / 1000 * fl_fs g1) (fl_y g1) g1) /\
       ch_x c = (fl_x g1 + fl_cm g1)%Q /\ ch_y c = fl_y g1 /\ ch_text c = t).
  { intros g1 Ef Ec Hr. unfold write_flow. rewrite (write_simple cw _ _ _ t Ht).
    - cbn [obind place]. eexists. split; [reflexivity|]. cbn. auto.
    - unfold room. apply floor_ge, glyphs_le; [rewrite Ef; exact Hfs|]. rewrite Ef. fold (line_width cw (fl_fs g) t). fold lw. rewrite Ec in *. lra. }
  destruct (beqb align (bs "C")) eqn:EC.
  { set (m := (fl_lm g + (width - lw) / 2)%Q). 
    assert (Hm : (fl_lm g <= m)%Q). { unfold m. assert (0 <= (width - lw) / 2)%Q; [|lra]. apply Qle_shift_div_l; [reflexivity|]. lra. }
    assert (X : (fl_x (set_left m g) == m)%Q).
    { cbn [fl_x set_left]. rewrite Hp. cbn [andb]. destruct (Qltb (fl_x g) m) eqn:E; [reflexivity|].
      assert (~ (fl_x g < m)%Q) by (intros Y; apply Qltb_true in Y; congruence). apply Qnot_lt_le in H. apply Qle_antisym; lra. }
    destruct (G (set_left m g) eq_refl eq_refl) as (c & E & C1 & C2 & C3).
    { cbn [fl_w fl_rm fl_cm set_left]. rewrite X. assert ((width - lw) / 2 * 2 == width - lw)%Q by (field; discriminate). unfold m. lra. }
    rewrite E. cbn [obind fst snd aligned_lines app]. unfold drawn_at. eexists. eexists. split; [reflexivity|]. split; [rewrite C1, X; cbn; unfold m; ring|].
    split; [exact C2|]. split; [exact C3|]. unfold same_but_x. cbn. tauto. }
  destruct (beqb align (bs "R")) eqn:ER.
  { set (m := (fl_lm g + (width - lw) - (201 # 100) * fl_cm g)%Q).
    assert (Hm : (fl_lm g <= m)%Q) by (unfold m; lra).
    assert (X : (fl_x (set_left m g) == m)%Q).
    { cbn [fl_x set_left]. rewrite Hp. cbn [andb]. destruct (Qltb (fl_x g) m) eqn:E; [reflexivity|].
      assert (~ (fl_x g < m)%Q) by (intros Y; apply Qltb_true in Y; congruence). apply Qnot_lt_le in H. apply Qle_antisym; lra. }
    destruct (G (set_left m g) eq_refl eq_refl) as (c & E & C1 & C2 & C3).
    { cbn [fl_w fl_rm fl_cm set_left]. rewrite X. unfold m. lra. }
    rewrite E. cbn [obind fst snd aligned_lines app]. unfold drawn_at. eexists. eexists. split; [reflexivity|]. split; [rewrite C1, X; cbn [fl_cm set_left]; unfold m; ring|].
    split; [exact C2|]. split; [exact C3|]. unfold same_but_x. cbn. tauto. }
  { destruct (G (set_right (fl_w g - fl_lm g - width) g) eq_refl eq_refl) as (c & E & C1 & C2 & C3).
    { cbn [fl_w fl_rm fl_cm fl_x set_right]. lra. }
    rewrite E. cbn [obind fst snd aligned_lines app]. unfold drawn_at. eexists. eexists. split; [reflexivity|]. split; [rewrite C1; cbn [fl_cm fl_x set_right]; lra|].
    split; [exact C2|]. split; [exact C3|]. unfold same_but_x. cbn. tauto. }
Qed.
Print Assumptions C85_one_line_partial.

(** ** Width 0: the space between the margins *)
Theorem C85_default_width :
  forall (u : bool) (cw : list Z) (missing : Z) (width h : Q) (t align : bytes) (g : flow),
    (width == 0)%Q ->
    write_aligned u cw missing width h t align g = write_aligned u cw missing (fl_w g - (fl_lm g + fl_rm g)) h t align g.
Proof.
  intros u cw missing width h t align g H. unfold write_aligned.
  assert (E : Qeq_bool width 0 = true) by (apply Qeq_bool_iff; exact H). rewrite E.
  destruct (Qeq_bool (fl_w g - (fl_lm g + fl_rm g)) 0); reflexivity.
Qed.
Print Assumptions C85_default_width.

(** ** Every text: nothing is lost, and the margins are as before *)
Definition visible (t : list Z) : list Z := filter (fun c => negb ((c =? 32) || (c =? 9) || (c =? 10) || (c =? 13))) t.
Lemma visible_app a b : visible (a ++ b)%list = (visible a ++ visible b)%list.
Proof. apply filter_app. Qed.
Lemma no_loss_visible sep s lines : (forall c, sep c = true -> c = 32 \/ c = 9) -> no_loss sep s lines -> visible (List.concat lines) = visible s.
Proof.
  intros Hs (ls & z & brk & El & Hl & -> & Hb).
  assert (E : List.concat lines = (List.concat ls ++ z)%list).
  { destruct El as [->|[-> ->]]; [rewrite List.concat_app; cbn; now rewrite app_nil_r|now rewrite app_nil_r]. }
  rewrite E. clear E El lines. revert brk Hl Hb. induction ls as [|l ls IH]; intros brk Hl Hb; [reflexivity|].
  destruct brk as [|b brk]; [discriminate Hl|]. apply Forall_cons_iff in Hb as [Hb1 Hb2]. cbn [combine List.concat].
  assert (X : visible ((l ++ List.concat ls) ++ z)%list = (visible l ++ visible (reassemble (combine ls brk) z))%list).
  { rewrite <- app_assoc, visible_app, (IH brk); [reflexivity|now injection Hl|exact Hb2]. }
  rewrite X. destruct b as [c|]; cbn [reassemble]; rewrite visible_app; [|reflexivity]. f_equal.
  change (c :: reassemble (combine ls brk) z) with ([c] ++ reassemble (combine ls brk) z)%list. rewrite visible_app.
  assert (visible [c] = []); [|now rewrite H]. destruct Hb1 as [->|Hc]; [reflexivity|]. apply Hs in Hc as [->| ->]; reflexivity.
Qed.
Lemma visible_cr t : visible (filter (fun c => negb (c =? 13)) t) = visible t.
Proof.
  unfold visible. induction t as [|c t IH]; [reflexivity|]. cbn [filter]. destruct (c =? 13) eqn:E; cbn [negb].
  - apply Z.eqb_eq in E as ->. exact IH.
  - cbn [filter]. now rewrite IH, E.
Qed.
Lemma visible_nl k : visible (repeat 10 k) = [].
Proof. induction k as [|k IH]; [reflexivity|exact IH]. Qed.
Definition texts (cs : list chunk) : list Z := List.concat (map ch_text cs).
Lemma place_texts cw missing h evs g cs g2 : place false cw missing h evs g = Ret (cs, g2) -> map ch_text cs = printed evs /\ 
  fl_w g2 = fl_w g /\ fl_lm g2 = fl_lm g /\ fl_rm g2 = fl_rm g /\ fl_cm g2 = fl_cm g /\ fl_fs g2 = fl_fs g /\ fl_page g2 = fl_page g.
Proof.
  revert g cs. induction evs as [|e evs IH]; intros g cs H; cbn [place] in H.
  - injection H as <- <-. tauto.
  - destruct e as [t| |t l|].
    + destruct (place false cw missing h evs _) as [[cs' g']| |] eqn:E; cbn [obind] in H; try discriminate. injection H as <- <-.
      apply IH in E as (E & R). split; [cbn; now rewrite E|exact R].
    + apply IH in H as (E & R). split; [exact E|exact R].
    + destruct (place false cw missing h evs _) as [[cs' g']| |] eqn:E; cbn [obind] in H; try discriminate. injection H as <- <-.
      apply IH in E as (E & R). split; [cbn; now rewrite E|exact R].
    + destruct (text_width _ _ _ _ _) as [d| |]; cbn [obind] in H; try discriminate. apply IH in H as (E & R). split; [exact E|exact R].
Qed.
Lemma place_total cw missing h evs : length cw = 256%nat -> forall g, exists r, place false cw missing h evs g = Ret r.
Proof.
  intros Hl. induction evs as [|e evs IH]; intros g; [eexists; reflexivity|]. cbn [place].
  destruct e as [t| |t l|]; try (destruct (IH (at_xy (fl_lm g) (fl_y g + h) g)) as (r & ->); cbn [obind]; eexists; reflexivity).
  - destruct (IH (at_xy (fl_x g + inject_Z l / 1000 * fl_fs g) (fl_y g) g)) as (r & ->). cbn [obind]. eexists; reflexivity.
  - unfold text_width. destruct C11_width_partial as (H & _). rewrite H; [|exact Hl|repeat constructor; unfold is_byte; lia|cbn; intuition discriminate].
    cbn [obind]. apply IH.
Qed.
Definition byte_text (cw : list Z) (t : bytes) : Prop := length cw = 256%nat /\ Forall is_byte t /\ ~ In 0 t.
Lemma write_flow_spec cw missing h t g : byte_text cw t -> ~ In 13 t ->
  exists cs g2, write_flow false cw missing h t g = Ret (cs, g2) /\ visible (texts cs) = visible t /\
    fl_w g2 = fl_w g /\ fl_lm g2 = fl_lm g /\ fl_rm g2 = fl_rm g /\ fl_cm g2 = fl_cm g /\ fl_fs g2 = fl_fs g /\ fl_page g2 = fl_page g.
Proof.
  intros (Hl & Hb & H0) Hcr. unfold write_flow.
  destruct (C10_write_partial false cw (Qltb (fl_lm g) (fl_x g)) (room g (fl_x g)) (room g (fl_lm g)) t (replace_all [13] [] t) eq_refl) as (evs & E & NL & _).
  { intros c Hc _. rewrite strip_cr in Hc. apply filter_In in Hc as [Hc _]. rewrite Forall_forall in Hb. apply Hb in Hc. unfold is_byte in Hc.
    unfold at_. replace (c <? 0) with false by lia. apply nth_error_Some. lia. }
  { intros [X _]. discriminate X. }
  rewrite E. cbn [obind]. destruct (place_total cw missing h evs Hl g) as ([cs g2] & P). exists cs, g2. split; [exact P|].
  apply place_texts in P as (Et & R). split; [|exact R]. unfold texts. rewrite Et. rewrite (no_loss_visible _ _ _ (fun c (Hc : (c =? 32) = true) => or_introl (proj1 (Z.eqb_eq c 32) Hc)) NL).
  now rewrite no_cr.
Qed.

Theorem C85_text_partial :
  forall (cw : list Z) (missing : Z) (width h : Q) (t align : bytes) (g : flow),
    byte_text cw t ->
    exists cs g2, write_aligned false cw missing width h t align g = Ret (cs, g2) /\ visible (texts cs) = visible t /\
      fl_lm g2 = fl_lm g /\ fl_rm g2 = fl_rm g /\ fl_cm g2 = fl_cm g /\ fl_fs g2 = fl_fs g.
Proof.
  intros cw missing width h t align g (Hl & Hb & H0). unfold write_aligned. set (width' := if Qeq_bool width 0 then _ else width). cbv zeta.
  set (wmax := Qceiling _).
  destruct (C07_split_lines cw wmax t _ (body_trim t)) as (lines & E & NL & HL & _).
  { intros c Hc. rewrite Hl. destruct (body_trim t) as (k & Ek & _). assert (In c t).
    { assert (In c (filter (fun c => negb (c =? 13)) t)) by (rewrite Ek; apply in_or_app; now left). now apply filter_In in H. }
    rewrite Forall_forall in Hb. apply Hb in H. unfold is_byte in H. lia. }
  rewrite E. cbn [obind].
  assert (Hv : visible (List.concat lines) = visible t).
  { assert (Hsp : forall c, (c =? 32) || (c =? 9) = true -> c = 32 \/ c = 9) by (intros; lia). rewrite (no_loss_visible _ _ _ Hsp NL). destruct (body_trim t) as (k & Ek & _).
    rewrite <- (visible_cr t), Ek, visible_app. rewrite visible_nl, app_nil_r. reflexivity. }
  assert (Hin : forall c, In c (List.concat lines) -> In c t /\ c <> 13).
  { assert (S : incl (List.concat lines) (trim_nl (replace_all [13] [] t))).
    { destruct NL as (ls & z & brk & El & Hlen & -> & _). assert (Ec : List.concat lines = (List.concat ls ++ z)%list).
      { destruct El as [->|[-> ->]]; [rewrite List.concat_app; cbn; now rewrite app_nil_r|now rewrite app_nil_r]. }
      rewrite Ec. clear -Hlen. revert brk Hlen. induction ls as [|l ls IH]; intros brk Hlen; [intros x Hx; exact Hx|]. destruct brk as [|b brk]; [discriminate Hlen|].
      injection Hlen as Hlen. cbn [combine List.concat]. intros x Hx. rewrite <- app_assoc in Hx. apply in_app_or in Hx.
      destruct b; cbn [reassemble]; apply in_or_app; (destruct Hx as [Hx|Hx]; [now left|right]); [right|]; now apply (IH brk Hlen). }
    intros c Hc. apply S in Hc. destruct (body_trim t) as (k & Ek & _).
    assert (X : In c (filter (fun c => negb (c =? 13)) t)) by (rewrite Ek; apply in_or_app; now left). apply filter_In in X as [X1 X2]. split; [exact X1|lia]. }
  clearbody width' wmax. clear E NL HL.
  (* the lines *)
  rewrite <- Hv. clear Hv.
  assert (G : forall lines g1, (forall c, In c (List.concat lines) -> In c t /\ c <> 13) -> fl_lm g1 = fl_lm g -> fl_rm g1 = fl_rm g -> fl_cm g1 = fl_cm g -> fl_fs g1 = fl_fs g ->
    exists cs g2, aligned_lines false cw missing width' h (fl_lm g) (fl_rm g) (fl_w g) align lines g1 = Ret (cs, g2) /\ visible (texts cs) = visible (List.concat lines) /\
      fl_lm g2 = fl_lm g /\ fl_rm g2 = fl_rm g /\ fl_cm g2 = fl_cm g /\ fl_fs g2 = fl_fs g).
  { clear lines Hin. induction lines as [|l lines IH]; intros g1 Hin E1 E2 E3 E4.
    - exists [], g1. cbn. tauto.
    - cbn [List.concat] in Hin.
      assert (Bl : byte_text cw l /\ ~ In 13 l).
      { split; [split; [exact Hl|split]|].
        - apply Forall_forall. intros c Hc. destruct (Hin c) as [X _]; [apply in_or_app; now left|]. rewrite Forall_forall in Hb. now apply Hb.
        - intros X. destruct (Hin 0) as [Y _]; [apply in_or_app; now left|]. contradiction.
        - intros X. destruct (Hin 13) as [_ Y]; [apply in_or_app; now left|]. congruence. }
      assert (L : exists cs g2, aligned_line false cw missing width' h (fl_lm g) (fl_rm g) (fl_w g) align l g1 = Ret (cs, g2) /\ visible (texts cs) = visible l /\
        fl_lm g2 = fl_lm g /\ fl_rm g2 = fl_rm g /\ fl_cm g2 = fl_cm g /\ fl_fs g2 = fl_fs g).
      { unfold aligned_line, text_width. destruct Bl as [(B1 & B2 & B3) B4]. destruct C11_width_partial as (WP & _). rewrite WP by auto. cbn [obind].
        destruct (beqb align (bs "C")).
        { destruct (write_flow_spec cw missing h l (set_left (fl_lm g + (width' - inject_Z (LineSpec.width (wd cw) l) * fl_fs g1 / 1000) / 2) g1) (conj B1 (conj B2 B3)) B4) as (cs & g2 & -> & V & R1 & R2 & R3 & R4 & R5 & R6).
          cbn [obind fst snd]. exists cs, (set_left (fl_lm g) g2). split; [reflexivity|]. split; [exact V|]. cbn in *. rewrite R3, R4, R5. tauto. }
        destruct (beqb align (bs "R")).
        { destruct (write_flow_spec cw missing h l (set_left (fl_lm g + (width' - inject_Z (LineSpec.width (wd cw) l) * fl_fs g1 / 1000) - (201 # 100) * fl_cm g1) g1) (conj B1 (conj B2 B3)) B4) as (cs & g2 & -> & V & R1 & R2 & R3 & R4 & R5 & R6).
          cbn [obind fst snd]. exists cs, (set_left (fl_lm g) g2). split; [reflexivity|]. split; [exact V|]. cbn in *. rewrite R3, R4, R5. tauto. }
        destruct (write_flow_spec cw missing h l (set_right (fl_w g - fl_lm g - width') g1) (conj B1 (conj B2 B3)) B4) as (cs & g2 & -> & V & R1 & R2 & R3 & R4 & R5 & R6).
        cbn [obind fst snd]. exists cs, (set_right (fl_rm g) g2). split; [reflexivity|]. split; [exact V|]. cbn in *. rewrite R2, R4, R5. tauto. }
      destruct L as (cs & g2 & El & V & L1 & L2 & L3 & L4).
      destruct (IH g2) as (cs2 & g3 & E5 & V2 & M); auto. { intros c Hc. apply Hin, in_or_app. now right. }
      exists (cs ++ cs2)%list, g3. cbn [aligned_lines]. rewrite El. cbn [obind fst snd]. rewrite E5. cbn [obind fst snd]. split; [reflexivity|].
      split; [|exact M]. unfold texts. rewrite map_app, List.concat_app, visible_app. cbn [List.concat]. rewrite visible_app. fold (texts cs) (texts cs2). now rewrite V, V2. }
  apply G; auto.
Qed.
Print Assumptions C85_text_partial.

(** ** Concrete texts: a font whose 256 glyphs are 500 wide, size 10 (each glyph 5 units), a page 100 wide with margins 10 and cells with margin 1 *)
Definition cw0 : list Z := repeat 500 256.
Definition flow0 : flow := {| fl_w := 100; fl_lm := 10; fl_rm := 10; fl_cm := 1; fl_fs := 10; fl_x := 10; fl_y := 0; fl_page := true |}.
Lemma cw0_bytes t : forallb (fun c => (1 <=? c) && (c <=? 255)) t = true -> byte_text cw0 t.
Proof.
  intros H. rewrite forallb_forall in H. split; [reflexivity|]. split; [apply Forall_forall; intros c Hc; apply H in Hc; unfold is_byte; lia|].
  intros X. apply H in X. discriminate X.
Qed.
Lemma cw0_text t : forallb (fun c => (1 <=? c) && (c <=? 255) && negb (c =? 10) && negb (c =? 13)) t = true -> t <> [] -> simple_text cw0 t.
Proof.
  intros H Hne. assert (H' : Forall (fun c => 1 <= c <= 255 /\ c <> 10 /\ c <> 13) t) by (apply Forall_forall; intros c Hc; rewrite forallb_forall in H; apply H in Hc; lia).
  clear H. rename H' into H. assert (G : forall x, (x < 1 \/ x = 10 \/ x = 13) -> ~ In x t) by (intros x Hx Hi; rewrite Forall_forall in H; specialize (H x Hi); lia).
  split; [reflexivity|]. split; [eapply Forall_impl; [|exact H]; cbv beta; unfold is_byte; intros; lia|].
  split; [apply G; lia|]. split; [apply G; lia|]. split; [apply G; lia|]. split; [exact Hne|].
  intros c _. unfold wd, at_, cw0. destruct (c <? 0); [lia|]. destruct (nth_error (repeat 500 256) (Z.to_nat c)) as [w|] eqn:E; [|lia].
  apply nth_error_In in E. apply repeat_spec in E. lia.
Qed.
Example C85_ex : simple_text cw0 (bs "abc") /\ box flow0 40 /\ (line_width cw0 (fl_fs flow0) (bs "abc") == 15)%Q /\ byte_text cw0 (bs "ab c") /\
  (forall r, write_aligned false cw0 0 40 5 (bs "abc") (bs "R") flow0 = Ret r -> match fst r with [c] => ch_x c == 34 - (1 # 100) | _ => False end)%Q.
Proof.
  split; [apply cw0_text; [reflexivity|discriminate]|]. split. { constructor; cbn; try reflexivity; try lra. }
  split; [reflexivity|]. split; [apply cw0_bytes; reflexivity|].
  intros r H. vm_compute in H. injection H as <-. vm_compute. reflexivity.
Qed.

(** *** Lines are not rows: a newline, and the end of a full line, do not begin a new row *)
Definition rows_apart (cs : list chunk) : Prop := NoDup (map (fun c => Qred (ch_y c)) cs).
Theorem C85_rows_refuted :
  ~ (forall cw missing width h t align g cs g2, byte_text cw t -> box g width -> (0 < h)%Q ->
       write_aligned false cw missing width h t align g = Ret (cs, g2) -> rows_apart cs).
Proof.
  intros H. destruct (write_aligned false cw0 0 40 5 (bs "a" ++ [10] ++ bs "b") (bs "L") flow0) as [[cs g2]| |] eqn:E; [|vm_compute in E; discriminate E|vm_compute in E; discriminate E].
  assert (B : byte_text cw0 (bs "a" ++ [10] ++ bs "b")). { apply cw0_bytes. reflexivity. }
  assert (X : box flow0 40) by (constructor; cbn; try reflexivity; try lra).
  specialize (H cw0 0 40%Q 5%Q _ _ _ _ _ B X ltac:(reflexivity) E). vm_compute in E. injection E as <- <-. unfold rows_apart in H. vm_compute in H. apply NoDup_cons_iff in H as [H _]. apply H. now left.
Qed.
Print Assumptions C85_rows_refuted.

(** *** Words of two lines are joined: the space at which SplitLines broke the text is not printed, but the next word goes on the same row *)
Theorem C85_words_refuted :
  ~ (forall cw missing width h a b align g cs g2 c1 c2 rest, byte_text cw (a ++ 32 :: b) -> ~ In 32 a -> ~ In 32 b -> box g width -> (0 < h)%Q ->
       write_aligned false cw missing width h (a ++ 32 :: b) align g = Ret (cs, g2) -> cs = c1 :: c2 :: rest ->
       (ch_y c2 == ch_y c1)%Q -> (ch_x c1 + line_width cw (fl_fs g) (ch_text c1) < ch_x c2)%Q).
Proof.
  intros H. destruct (write_aligned false cw0 0 22 5 (bs "ab" ++ 32 :: bs "cd") (bs "L") flow0) as [[cs g2]| |] eqn:E; [|vm_compute in E; discriminate E|vm_compute in E; discriminate E].
  assert (B : byte_text cw0 (bs "ab" ++ 32 :: bs "cd")). { apply cw0_bytes. reflexivity. }
  assert (X : box flow0 22) by (constructor; cbn; try reflexivity; try lra).
  specialize (fun c1 c2 rest => H cw0 0 22%Q 5%Q (bs "ab") (bs "cd") (bs "L") flow0 cs g2 c1 c2 rest B ltac:(cbn; intuition discriminate) ltac:(cbn; intuition discriminate) X ltac:(reflexivity) E).
  vm_compute in E. injection E as <- <-. specialize (H _ _ _ eq_refl). revert H. vm_compute. intros H. specialize (H eq_refl). discriminate H.
Qed.
Print Assumptions C85_words_refuted.

(** *** Centred text is not in the middle: it is the cell margin too far to the right *)
Theorem C85_centre_refuted :
  ~ (forall cw missing width h t g c g2, simple_text cw t -> box g width -> (line_width cw (fl_fs g) t <= width - 4 * fl_cm g)%Q ->
       write_aligned false cw missing width h t (bs "C") g = Ret ([c], g2) ->
       (ch_x c + line_width cw (fl_fs g) t / 2 == fl_lm g + width / 2)%Q).
Proof.
  intros H. destruct (write_aligned false cw0 0 40 5 (bs "abc") (bs "C") flow0) as [[[|c [|]] g2]| |] eqn:E; try (vm_compute in E; discriminate E).
  assert (B : simple_text cw0 (bs "abc")) by (apply cw0_text; [reflexivity|discriminate]).
  assert (X : box flow0 40) by (constructor; cbn; try reflexivity; try lra).
  specialize (H cw0 0 40%Q 5%Q _ flow0 _ _ B X ltac:(vm_compute; discriminate) E). vm_compute in E. injection E as <- <-. vm_compute in H. discriminate H.
Qed.
Print Assumptions C85_centre_refuted.

(** *** A line that fits the box is broken when it is centred *)
Definition flow2 : flow := {| fl_w := 100; fl_lm := 10; fl_rm := 10; fl_cm := 2; fl_fs := 10; fl_x := 10; fl_y := 0; fl_page := true |}.
Theorem C85_centre_breaks_refuted :
  ~ (forall cw missing width h t g cs g2, simple_text cw t -> box g width -> (line_width cw (fl_fs g) t <= width - 2 * fl_cm g)%Q ->
       write_aligned false cw missing width h t (bs "C") g = Ret (cs, g2) -> length cs = 1%nat).
Proof.
  intros H. destruct (write_aligned false cw0 0 80 5 (bs "aaaaaaaa bbbbbb") (bs "C") flow2) as [[cs g2]| |] eqn:E; [|vm_compute in E; discriminate E|vm_compute in E; discriminate E].
  assert (B : simple_text cw0 (bs "aaaaaaaa bbbbbb")) by (apply cw0_text; [reflexivity|discriminate]).
  assert (X : box flow2 80) by (constructor; cbn; try reflexivity; try lra).
  specialize (H cw0 0 80%Q 5%Q _ flow2 _ _ B X ltac:(vm_compute; discriminate) E). vm_compute in E. injection E as <- <-. vm_compute in H. discriminate H.
Qed.
Print Assumptions C85_centre_breaks_refuted.
