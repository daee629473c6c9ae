(** C78: registered fonts keep their definition, encoding and file. *)
From Verif Require Import Base RegModel RegSpec.
From Coq Require Import String.
Open Scope Z_scope.
Notation length := List.length.

(** ** Names *)
Lemma low_lc s : low s = map lc s.
Proof. reflexivity. Qed.
Lemma fam_esc_eq s : fam_esc s = flat_map (fun c => if 32 =? c then [35; 50; 48] else [c]) s.
Proof. unfold fam_esc. change (bs " ") with [32]. now rewrite replace_all_byte. Qed.
Lemma lc_32 c : lc c = 32 <-> c = 32.
Proof. unfold lc. destruct ((65 <=? c) && (c <=? 90)) eqn:E; lia. Qed.
Lemma low_esc f g : same_name f g -> low (fam_esc f) = low (fam_esc g).
Proof.
  unfold same_name. rewrite !fam_esc_eq. change low with (map lc). revert g. induction f as [|x f IH]; intros [|y g] H; try discriminate H; [reflexivity|].
  cbn [map] in H. injection H as H1 H2. cbn [flat_map]. rewrite !map_app, (IH g H2). f_equal.
  pose proof (lc_32 x) as X. pose proof (lc_32 y) as Y. destruct (Z.eqb_spec 32 x), (Z.eqb_spec 32 y); cbn [map]; try reflexivity; try congruence.
  - exfalso. apply n. symmetry. apply Y. rewrite <- H1. apply X. now symmetry.
  - exfalso. apply n. symmetry. apply X. rewrite H1. apply Y. now symmetry.
Qed.
Lemma esc_esc f : fam_esc (fam_esc f) = fam_esc f.
Proof.
  rewrite !fam_esc_eq. induction f as [|c f IH]; [reflexivity|]. cbn [flat_map]. rewrite flat_map_app, IH. f_equal.
  destruct (Z.eqb_spec 32 c); [reflexivity|]. cbn [flat_map]. destruct (Z.eqb_spec 32 c); [congruence|reflexivity].
Qed.
Lemma low_esc_inj f g : ~ In 35 f -> ~ In 35 g -> low (fam_esc f) = low (fam_esc g) -> same_name f g.
Proof.
  unfold same_name. rewrite !fam_esc_eq. change low with (map lc). revert g. induction f as [|x f IH]; intros [|y g] Hf Hg H; [reflexivity| | |].
  - cbn [flat_map] in H. exfalso. destruct (32 =? y); discriminate H.
  - cbn [flat_map] in H. exfalso. destruct (32 =? x); discriminate H.
  - cbn [flat_map] in H. rewrite !map_app in H.
    assert (X : lc x = 35 -> x = 35) by (unfold lc; destruct ((65 <=? x) && (x <=? 90)) eqn:E; lia).
    assert (Y : lc y = 35 -> y = 35) by (unfold lc; destruct ((65 <=? y) && (y <=? 90)) eqn:E; lia).
    destruct (Z.eqb_spec 32 x) as [<-|Nx], (Z.eqb_spec 32 y) as [<-|Ny]; cbn [map app] in H.
    + injection H as H. cbn [map]. f_equal. apply IH; [intros K; apply Hf; now right|intros K; apply Hg; now right|exact H].
    + injection H as H _. change (lc 35) with 35 in H. exfalso. apply Hg. left. apply Y. now symmetry.
    + injection H as H _. change (lc 35) with 35 in H. exfalso. apply Hf. left. now apply X.
    + injection H as H0 H. cbn [map]. f_equal; [exact H0|]. apply IH; [intros K; apply Hf; now right|intros K; apply Hg; now right|exact H].
Qed.
(** the normal form of a style *)
Definition face_of (s : bytes) : bytes := (if bold s then [66] else []) ++ (if italic s then [73] else []).
Definition norm (s : bytes) : bytes := if beqb (up s) (bs "IB") then bs "BI" else up s.
Lemma lc_up c d : lc c = d -> 97 <= d <= 122 -> (if (97 <=? c) && (c <=? 122) then c - 32 else c) = d - 32.
Proof. unfold lc. destruct ((65 <=? c) && (c <=? 90)) eqn:E; destruct ((97 <=? c) && (c <=? 122)) eqn:E2; lia. Qed.
Lemma norm_face s : is_style s -> norm s = face_of s.
Proof.
  unfold is_style, norm, face_of, bold, italic, up, letter.
  assert (U : forall c d, lc c = d -> d = 98 \/ d = 105 -> (if (97 <=? c) && (c <=? 122) then c - 32 else c) = d - 32) by (intros; apply lc_up; lia).
  cbn [In]. intros [H|[H|[H|[H|[H|[]]]]]].
  - destruct s; [reflexivity|discriminate H].
  - destruct s as [|a [|b s]]; try discriminate H. injection H as H. cbn [map existsb]. rewrite (U a 98) by auto. rewrite <- H. reflexivity.
  - destruct s as [|a [|b s]]; try discriminate H. injection H as H. cbn [map existsb]. rewrite (U a 105) by auto. rewrite <- H. reflexivity.
  - destruct s as [|a [|b [|c s]]]; try discriminate H. injection H as H H'. cbn [map existsb]. rewrite (U a 98), (U b 105) by auto. rewrite <- H, <- H'. reflexivity.
  - destruct s as [|a [|b [|c s]]]; try discriminate H. injection H as H H'. cbn [map existsb]. rewrite (U a 105), (U b 98) by auto. rewrite <- H, <- H'. reflexivity.
Qed.
Lemma key_norm fam sty : font_key fam sty = low fam ++ norm sty.
Proof. reflexivity. Qed.
Lemma key_same f s g t : is_style s -> is_style t -> same_face f s g t -> font_key (fam_esc f) s = font_key (fam_esc g) t.
Proof.
  intros Hs Ht (H1 & H2 & H3). rewrite !key_norm, (norm_face s Hs), (norm_face t Ht), (low_esc f g H1). unfold face_of. now rewrite H2, H3.
Qed.
Lemma low_no_upper s c : In c (low s) -> c < 65 \/ 90 < c.
Proof. unfold low. intros H. apply in_map_iff in H as (x & <- & _). destruct ((65 <=? x) && (x <=? 90)) eqn:E; lia. Qed.
Lemma split_upper (a a' b b' : bytes) : (forall c, In c a -> c < 65 \/ 90 < c) -> (forall c, In c a' -> c < 65 \/ 90 < c) ->
  (forall c, In c b -> 65 <= c <= 90) -> (forall c, In c b' -> 65 <= c <= 90) -> a ++ b = a' ++ b' -> a = a' /\ b = b'.
Proof.
  revert a'. induction a as [|x a IH]; intros [|y a'] Ha Ha' Hb Hb' H; cbn [app] in H.
  - now split.
  - exfalso. specialize (Ha' y (or_introl eq_refl)). assert (K : In y b) by (rewrite H; now left). specialize (Hb y K). lia.
  - exfalso. specialize (Ha x (or_introl eq_refl)). assert (K : In x b') by (rewrite <- H; now left). specialize (Hb' x K). lia.
  - injection H as -> H. destruct (IH a') as [-> ->]; auto; intros c K; [apply Ha|apply Ha']; now right.
Qed.
Lemma key_inj f s g t : ~ In 35 f -> ~ In 35 g -> is_style s -> is_style t -> font_key (fam_esc f) s = font_key (fam_esc g) t -> same_face f s g t.
Proof.
  intros Hf Hg Hs Ht. rewrite !key_norm, (norm_face s Hs), (norm_face t Ht). intros H.
  apply split_upper in H as (H1 & H2); try apply low_no_upper.
  - split; [now apply low_esc_inj|]. unfold face_of in H2. destruct (bold s), (italic s), (bold t), (italic t); try discriminate H2; now split.
  - unfold face_of. intros c H3. destruct (bold s), (italic s); cbn in H3; lia.
  - unfold face_of. intros c H3. destruct (bold t), (italic t); cbn in H3; lia.
Qed.

Ltac name_it n := match goal with |- context [match ?f with [] => ?x | _ :: _ => ?f end] => generalize (match f with [] => x | _ :: _ => f end) as n end; intros n.

Section Props.
  Context {B : Type} (e : env B).
  Notation step := (step e). Notation run := (run e).
  Implicit Types s : st B.

  (** ** What one call does to the tables *)
  Inductive effect s s' : Prop :=
  | eff_none : s_fonts s' = s_fonts s -> s_files s' = s_files s -> s_diffs s' = s_diffs s -> effect s s'
  | eff_reg key d z : s_fonts s key = None -> s_fonts s' = s_fonts (register key d z s) -> s_files s' = s_files (register key d z s) ->
      s_diffs s' = s_diffs (register key d z s) -> effect s s'
  | eff_utf key d : s_fonts s key = None -> s_fonts s' = put (s_fonts s) key d -> d_tp d = bs "UTF8" -> d_diff d = [] ->
      (s_files s' = s_files s \/ exists i j, s_files s' = put (put (s_files s) key i) (d_file d) j) -> s_diffs s' = s_diffs s -> effect s s'.

  Lemma utf_def_facts m f : d_tp (utf_def e m f) = bs "UTF8" /\ d_diff (utf_def e m f) = [] /\ d_file (utf_def e m f) = f.
  Proof. unfold utf_def. cbv zeta. destruct (ident e _); now repeat split. Qed.
  Lemma reader_effect fam sty r s : effect s (add_reader e fam sty r s).
  Proof.
    unfold add_reader. destruct (s_err s) eqn:E; [now apply eff_none|]. destruct (s_fonts s (font_key (fam_esc fam) sty)) eqn:F; [now apply eff_none|].
    destruct r as [b|x]; [|now apply eff_none]. destruct (load e b) as [d|x]; [|now apply eff_none].
    eapply (eff_reg _ _ (font_key (fam_esc fam) sty) d None); auto.
  Qed.
  Lemma step_effect c s : effect s (step c s).
  Proof.
    destruct c; cbn [RegModel.step].
    - unfold add_font. cbv zeta. name_it n.
      destruct (s_loader s) as [ld|]; [destruct (ld n) as [r|]; [apply reader_effect|]|]; (destruct (disk e (join e (s_dir s) n)); [apply reader_effect|now apply eff_none]).
    - unfold add_font. cbv zeta. name_it n.
      destruct (s_fonts s (font_key (fam_esc fam) sty)) eqn:F; [now apply eff_none|].
      assert (SE : forall x, effect s (set_error x s)) by (intros x; unfold set_error; destruct (s_err s); now apply eff_none).
      destruct (disk e (join e (s_dir s) n)) as [b|x]; [|apply SE]. destruct (utf e (font_key (fam_esc fam) sty) b) as [m|x]; [|apply SE].
      destruct (utf_def_facts m (join e (s_dir s) n)) as (U1 & U2 & U3).
      eapply (eff_utf _ _ (font_key (fam_esc fam) sty) (utf_def e m (join e (s_dir s) n))); auto. right. rewrite U3. cbn. eauto.
    - unfold add_bytes. destruct (s_err s) eqn:E; [now apply eff_none|]. cbv zeta. destruct (s_fonts s (font_key (fam_esc fam) sty)) eqn:F; [now apply eff_none|].
      destruct (load e json) as [d|x]; [|now apply eff_none]. eapply (eff_reg _ _ (font_key (fam_esc fam) sty) d (Some z)); auto.
    - unfold add_bytes. destruct (s_err s) eqn:E; [now apply eff_none|]. cbv zeta. destruct (s_fonts s (font_key (fam_esc fam) sty)) eqn:F; [now apply eff_none|].
      destruct b as [b|].
      + destruct (utf e (font_key (fam_esc fam) sty) b) as [m|x]; [|now apply eff_none]. destruct (utf_def_facts m []) as (U1 & U2 & U3).
        eapply (eff_utf _ _ (font_key (fam_esc fam) sty) (utf_def e m [])); auto.
      + destruct (load e []) as [d|x]; [|now apply eff_none]. eapply (eff_reg _ _ (font_key (fam_esc fam) sty) d (Some [])); auto.
    - apply reader_effect.
    - unfold set_font. destruct (s_err s) eqn:E; [now apply eff_none|]. cbv zeta.
      match goal with |- context [match fam_esc fam with [] => ?x | _ :: _ => ?y end] => generalize (match fam_esc fam with [] => x | _ :: _ => y end) as f1 end; intros f1.
      match goal with |- context [if beqb (drop 83 ?a) ?b then ?x else ?y] => generalize (if beqb (drop 83 a) b then x else y) as s1 end; intros s1.
      destruct (s_fonts s (f1 ++ s1)); [now apply eff_none|]. generalize (if beqb f1 (bs "arial") then bs "helvetica" else f1) as f2; intros f2.
      destruct (existsb (beqb f2) core_names); [|now apply eff_none].
      generalize (if beqb f2 (bs "symbol") then bs "zapfdingbats" else f2) as f3; intros f3. generalize (if beqb f3 (bs "zapfdingbats") then [] else s1) as s3; intros s3.
      destruct (s_fonts s (f3 ++ s3)); [now apply eff_none|]. destruct (core e f3 s3) as [b|x]; [|now apply eff_none].
      pose proof (reader_effect f3 s3 (inl b) s) as R. destruct (s_err (add_reader e f3 s3 (inl b) s)); [exact R|].
      destruct R as [R1 R2 R3|k d z R0 R1 R2 R3|k d R0 R1 R2 R3 R4 R5]; [now apply eff_none|eapply eff_reg; eauto|eapply eff_utf; eauto].
    - now apply eff_none.
    - now apply eff_none.
    - unfold set_error. destruct (s_err s); now apply eff_none.
  Qed.

  Lemma put_same {V} (m : bytes -> option V) k v : put m k v k = Some v.
  Proof. unfold put. now rewrite beqb_refl. Qed.
  Lemma put_other {V} (m : bytes -> option V) k v x : x <> k -> put m k v x = m x.
  Proof. unfold put. intros H. destruct (beqb x k) eqn:E; [apply beqb_eq in E; contradiction|reflexivity]. Qed.
  Lemma register_fonts key (d : def B) z s : exists d', s_fonts (register key d z s) = put (s_fonts s) key d' /\ d' = fst (with_diff d (s_diffs s)).
  Proof. unfold register. destruct (with_diff d (s_diffs s)) as [d' l]. now exists d'. Qed.

  Lemma step_keeps c s k d : s_fonts s k = Some d -> s_fonts (step c s) k = Some d.
  Proof.
    intros H. destruct (step_effect c s) as [R1 _ _|key d1 z R0 R1 _ _|key d1 R0 R1 _ _ _ _]; rewrite R1; [exact H| |].
    - destruct (register_fonts key d1 z s) as (d' & -> & _). rewrite put_other; [exact H|congruence].
    - rewrite put_other; [exact H|congruence].
  Qed.
  Lemma run_keeps cs s k d : s_fonts s k = Some d -> s_fonts (run cs s) k = Some d.
  Proof. revert s. induction cs as [|c cs IH]; intros s H; [exact H|]. apply IH. now apply step_keeps. Qed.

  (** ** Encodings *)
  Lemma find_diff_some x l n m : find_diff x l n = Some m -> n <= m /\ nth_error l (Z.to_nat (m - n)) = Some x.
  Proof.
    revert n. induction l as [|y l IH]; intros n H; [discriminate H|]. cbn [find_diff] in H. destruct (beqb y x) eqn:E.
    - injection H as <-. apply beqb_eq in E as ->. split; [lia|]. now rewrite Z.sub_diag.
    - apply IH in H as (H1 & H2). split; [lia|]. replace (Z.to_nat (m - n)) with (S (Z.to_nat (m - (n + 1)))) by lia. exact H2.
  Qed.
  Lemma find_diff_none x l n : find_diff x l n = None -> ~ In x l.
  Proof.
    revert n. induction l as [|y l IH]; intros n H K; [exact K|]. cbn [find_diff] in H. destruct (beqb y x) eqn:E; [discriminate H|].
    destruct K as [<-|K]; [now rewrite beqb_refl in E|]. exact (IH _ H K).
  Qed.
  Lemma with_diff_facts (d : def B) l : own_encoding (snd (with_diff d l)) (fst (with_diff d l)) /\ (exists t, snd (with_diff d l) = l ++ t) /\
    (NoDup l -> NoDup (snd (with_diff d l))) /\ d_tp (fst (with_diff d l)) = d_tp d /\ d_file (fst (with_diff d l)) = d_file d /\
    d_diff (fst (with_diff d l)) = d_diff d /\ d_orig (fst (with_diff d l)) = d_orig d /\ d_size1 (fst (with_diff d l)) = d_size1 d /\
    d_size2 (fst (with_diff d l)) = d_size2 d /\ d_body (fst (with_diff d l)) = d_body d /\ d_id (fst (with_diff d l)) = d_id d.
  Proof.
    unfold with_diff, own_encoding. destruct (d_diff d) as [|c t] eqn:E.
    - cbn [fst snd]. rewrite E. repeat split; auto; try congruence. exists []. now rewrite app_nil_r.
    - rewrite <- E. destruct (find_diff (d_diff d) l 1) as [n|] eqn:F; cbn [fst snd set_diffn d_tp d_file d_diff d_orig d_size1 d_size2 d_body d_id d_diffn].
      + apply find_diff_some in F as (F1 & F2). repeat split; auto. exists []. now rewrite app_nil_r.
      + repeat split; auto; [lia| |now exists [d_diff d]|].
        * rewrite nth_error_app2 by lia. replace (Z.to_nat (Z.of_nat (length l) + 1 - 1) - length l)%nat with 0%nat by lia. reflexivity.
        * intros Hn. apply find_diff_none in F. pose proof (Add_app (d_diff d) l []) as AA. rewrite app_nil_r in AA.
          apply (NoDup_Add AA). now split.
  Qed.
  Definition sound s : Prop := NoDup (s_diffs s) /\ forall k d, s_fonts s k = Some d -> own_encoding (s_diffs s) d.
  Lemma own_more l t d : own_encoding (B := B) l d -> own_encoding (l ++ t) d.
  Proof. intros H N. destruct (H N) as (H1 & H2). split; [exact H1|]. rewrite nth_error_app1; [exact H2|]. apply nth_error_Some. congruence. Qed.
  Lemma step_diffs c s : exists t, s_diffs (step c s) = s_diffs s ++ t.
  Proof.
    destruct (step_effect c s) as [_ _ R|key d z _ _ _ R|key d _ _ _ _ _ R]; rewrite R; try (exists []; now rewrite app_nil_r).
    unfold register. destruct (with_diff_facts d (s_diffs s)) as (_ & X & _). destruct (with_diff d (s_diffs s)). exact X.
  Qed.
  Lemma step_sound c s : sound s -> sound (step c s).
  Proof.
    intros (H1 & H2). pose proof (step_diffs c s) as (t & T).
    destruct (step_effect c s) as [R1 _ R2|key d z R0 R1 _ R2|key d R0 R1 R3 R4 _ R2].
    - split; [now rewrite R2|]. rewrite R1, R2. exact H2.
    - unfold register in R1, R2. destruct (with_diff_facts d (s_diffs s)) as (D1 & D2 & D3 & _). destruct (with_diff d (s_diffs s)) as [d' l'].
      cbn [fst snd] in *. cbn [with_reg s_fonts s_diffs] in *. split; [rewrite R2; auto|]. intros k d1. rewrite R1, R2. unfold put.
      destruct (beqb k key); [intros [= <-]; exact D1|]. intros K. destruct D2 as (u & ->). apply own_more. exact (H2 k d1 K).
    - split; [now rewrite R2|]. intros k d1. rewrite R1, R2. unfold put. destruct (beqb k key); [|exact (H2 k d1)].
      intros [= <-]. intros N. contradiction.
  Qed.
  Lemma run_sound cs s : sound s -> sound (run cs s).
  Proof. revert s. induction cs as [|c cs IH]; intros s H; [exact H|]. apply IH. now apply step_sound. Qed.
  Lemma new_sound dir : sound (new dir).
  Proof. split; [constructor|]. intros k d H. discriminate H. Qed.

  (** Every registered font that has differences of its own is numbered with them, whatever was registered before and since, and
      no encoding is kept twice. *)
  Theorem C78_encodings dir cs fam sty d : get_font fam sty (run cs (new dir)) = Some d -> own_encoding (s_diffs (run cs (new dir))) d.
  Proof. intros H. exact (proj2 (run_sound cs _ (new_sound dir)) _ _ H). Qed.
  Theorem C78_encodings_once dir cs : NoDup (s_diffs (run cs (new dir))).
  Proof. exact (proj1 (run_sound cs _ (new_sound dir))). Qed.

  (** A registered face is never changed by a later call, in whatever spelling. *)
  Theorem C78_keeps s cs fam sty fam' sty' d : is_style sty -> is_style sty' -> same_face fam sty fam' sty' ->
    get_font fam sty s = Some d -> get_font fam' sty' (run cs s) = Some d.
  Proof. intros H1 H2 H3 H. unfold get_font in *. rewrite <- (key_same fam sty fam' sty' H1 H2 H3). now apply run_keeps. Qed.

  (** ** What the calls register *)
  Lemma load_same b d0 d : parse e b = inl d0 -> load e b = inl d -> same_font e d0 d.
  Proof.
    unfold load. intros ->. destruct (ident e (no_file d0)) as [i|] eqn:E; [|discriminate]. intros [= <-]. unfold same_font. cbn. auto 10.
  Qed.
  Lemma register_got key (d : def B) z s : exists d', s_fonts (register key d z s) key = Some d' /\ d' = fst (with_diff d (s_diffs s)) /\
    s_files (register key d z s) = with_file d' z (s_files s) /\ s_err (register key d z s) = s_err s.
  Proof. unfold register. destruct (with_diff d (s_diffs s)) as [d' l]. cbn. exists d'. rewrite put_same. auto. Qed.
  Lemma with_file_own (d : def B) z m : d_file d <> [] -> exists i, with_file d z m (d_file d) = Some i /\ own_file d z i.
  Proof.
    unfold with_file, own_file. intros H. destruct (d_file d) as [|c t] eqn:E; [contradiction|]. rewrite <- E in *.
    destruct (beqb (d_tp d) (bs "TrueType")) eqn:T.
    - apply beqb_eq in T. rewrite put_same. eexists. split; [reflexivity|]. cbn. split; [reflexivity|]. split; [auto|]. split; [contradiction|]. destruct z; auto.
    - assert (d_tp d <> bs "TrueType") by (intros X; rewrite X, beqb_refl in T; discriminate T).
      rewrite put_same. eexists. split; [reflexivity|]. cbn. split; [reflexivity|]. split; [contradiction|]. split; [auto|]. destruct z; auto.
  Qed.
  Lemma filter_space f : ~ In 32 f -> filter (fun c => negb (c =? 32)) f = f.
  Proof.
    induction f as [|c f IH]; [reflexivity|]. intros H. cbn [filter]. destruct (Z.eqb_spec c 32) as [->|N]; [exfalso; apply H; now left|].
    cbn [negb]. f_equal. apply IH. intros K. apply H. now right.
  Qed.
  Lemma esc_none f : ~ In 32 f -> fam_esc f = f.
  Proof.
    rewrite fam_esc_eq. induction f as [|c f IH]; [reflexivity|]. intros H. cbn [flat_map]. destruct (Z.eqb_spec 32 c) as [<-|N]; [exfalso; apply H; now left|].
    cbn [app]. f_equal. apply IH. intros K. apply H. now right.
  Qed.
  Lemma del_space f : replace_all (bs " ") [] f = filter (fun c => negb (c =? 32)) f.
  Proof.
    change (bs " ") with [32]. rewrite replace_all_byte. induction f as [|c f IH]; [reflexivity|]. cbn [flat_map filter].
    rewrite IH, (Z.eqb_sym c). now destruct (32 =? c).
  Qed.
  Lemma defines_step s c fam sty b z : s_err s = None -> get_font fam sty s = None -> defines e (s_dir s) (s_loader s) c fam sty b z ->
    step c s = match load e b with inr x => with_err x s | inl d => register (font_key (fam_esc fam) sty) d z s end.
  Proof.
    intros He Hg H. unfold get_font in Hg. inversion H as [f1 s1 j1 z1|f1 s1 j1|f1 s1 n1 j1 l1 H1 H2 H3|f1 s1 n1 j1 H1 H2 H3|f1 s1 j1 H1 H2 H3]; subst; cbn [RegModel.step].
    - unfold add_bytes. now rewrite He, Hg.
    - unfold add_reader. now rewrite He, Hg.
    - unfold add_font. destruct n1 as [|c0 t0] eqn:En; [contradiction|]. rewrite <- En in *. cbv zeta. rewrite H2, H3.
      unfold add_reader. now rewrite He, esc_esc, Hg.
    - unfold add_font. destruct n1 as [|c0 t0] eqn:En; [contradiction|]. rewrite <- En in *. cbv zeta. rewrite H3.
      assert (R : add_reader e (fam_esc fam) sty (inl b) s = match load e b with inr x => with_err x s | inl d => register (font_key (fam_esc fam) sty) d None s end)
        by (unfold add_reader; now rewrite He, esc_esc, Hg).
      destruct (s_loader s) as [l|]; [rewrite (H2 l eq_refl)|]; exact R.
    - unfold add_font. cbv zeta.
      assert (N : replace_all (bs " ") [] (fam_esc fam) ++ low sty ++ bs ".json" = default_name fam sty)
        by (unfold default_name; rewrite (esc_none fam H1), del_space; reflexivity).
      rewrite N, H3.
      assert (R : add_reader e (fam_esc fam) sty (inl b) s = match load e b with inr x => with_err x s | inl d => register (font_key (fam_esc fam) sty) d None s end)
        by (unfold add_reader; now rewrite He, esc_esc, Hg).
      destruct (s_loader s) as [l|]; [rewrite (H2 l eq_refl)|]; exact R.
  Qed.

  Lemma step_err_mono c s : s_err s <> None -> s_err (step c s) <> None.
  Proof.
    intros H. destruct c; cbn [RegModel.step]; try exact H.
    - unfold add_font, add_reader. cbv zeta. destruct (s_err s) eqn:E; [|contradiction]. name_it n.
      destruct (s_loader s) as [ld|]; [destruct (ld n); [now rewrite E|]|]; (destruct (disk e _); [now rewrite E|discriminate]).
    - unfold add_font. cbv zeta. name_it n.
      destruct (s_fonts s _); [exact H|]. assert (SE : forall x, s_err (set_error x s) <> None) by (intros x; unfold set_error; destruct (s_err s) eqn:Q; [congruence|discriminate]) .
      destruct (disk e _); [|apply SE]. destruct (utf e _ _); [exact H|apply SE].
    - unfold add_bytes. destruct (s_err s) eqn:Q; [congruence|contradiction].
    - unfold add_bytes. destruct (s_err s) eqn:Q; [congruence|contradiction].
    - unfold add_reader. destruct (s_err s) eqn:Q; [congruence|contradiction].
    - unfold set_font. destruct (s_err s) eqn:Q; [congruence|contradiction].
    - unfold set_error. destruct (s_err s) eqn:Q; [congruence|contradiction].
  Qed.
  Lemma run_err_mono cs s : s_err (run cs s) = None -> s_err s = None.
  Proof.
    revert s. induction cs as [|c cs IH]; intros s H; [exact H|]. apply IH in H. destruct (s_err s) eqn:E; [|reflexivity].
    exfalso. apply (step_err_mono c s); congruence.
  Qed.

  (** The first call that names a face decides: at the end of any history without an error, every spelling of that face is the
      definition that call read, numbered with its own encoding. *)
  Theorem C78_first s c post fam sty fam' sty' b z d0 :
    defines e (s_dir s) (s_loader s) c fam sty b z -> parse e b = inl d0 -> get_font fam sty s = None ->
    is_style sty -> is_style sty' -> same_face fam sty fam' sty' -> s_err (run (c :: post) s) = None ->
    exists d, get_font fam' sty' (run (c :: post) s) = Some d /\ same_font e d0 d /\ own_encoding (s_diffs (run (c :: post) s)) d.
  Proof.
    intros Hd Hp Hg H1 H2 H3 He. assert (E1 : s_err (step c s) = None) by exact (run_err_mono post (step c s) He).
    assert (E0 : s_err s = None) by exact (run_err_mono [c] s E1).
    pose proof (defines_step s c fam sty b z E0 Hg Hd) as S. destruct (load e b) as [d|x] eqn:L; [|rewrite S in E1; discriminate E1].
    pose proof (load_same b d0 d Hp L) as (K1 & K2 & K3 & K4 & K5 & K6 & K7 & K8).
    destruct (register_got (font_key (fam_esc fam) sty) d z s) as (d' & G1 & G2 & _). rewrite <- S in G1.
    destruct (with_diff_facts d (s_diffs s)) as (W1 & _ & _ & W2 & W3 & W4 & W5 & W6 & W7 & W8 & W9). rewrite <- G2 in *.
    exists d'. split; [|split].
    - change (get_font fam' sty' (run post (step c s)) = Some d'). apply (C78_keeps _ post fam sty); auto.
    - unfold same_font. repeat split; congruence.
    - change (run (c :: post) s) with (run post (step c s)). clear He.
      assert (O : own_encoding (s_diffs (step c s)) d').
      { rewrite S. unfold register. destruct (with_diff d (s_diffs s)) as [dd l]. exact W1. }
      revert O. generalize (step c s). induction post as [|c1 post IH]; intros s1 O; [exact O|]. apply (IH (step c1 s1)).
      destruct (step_diffs c1 s1) as (t & ->). now apply own_more.
  Qed.

  (** The same for UTF-8 fonts; AddUTF8Font even works in a document with an error. *)
  Theorem C78_utf8_first s c post fam sty fam' sty' b file m : reads_utf8 e (s_dir s) c fam sty b file ->
    (s_err s = None \/ exists n, c = AddUTF8Font fam sty n) ->
    (forall key, utf e key b = inl (m key)) -> get_font fam sty s = None -> is_style sty -> is_style sty' -> same_face fam sty fam' sty' ->
    exists d key, get_font fam' sty' (run (c :: post) s) = Some d /\ d_tp d = bs "UTF8" /\ d_file d = file /\ d_body d = m key /\ d_diff d = [] /\ d_diffn d = 0.
  Proof.
    intros Hd He Hm Hg H1 H2 H3. unfold get_font in Hg.
    assert (F : forall f, d_tp (utf_def e (m (font_key (fam_esc fam) sty)) f) = bs "UTF8" /\ d_file (utf_def e (m (font_key (fam_esc fam) sty)) f) = f /\
      d_body (utf_def e (m (font_key (fam_esc fam) sty)) f) = m (font_key (fam_esc fam) sty) /\ d_diff (utf_def e (m (font_key (fam_esc fam) sty)) f) = [] /\ d_diffn (utf_def e (m (font_key (fam_esc fam) sty)) f) = 0)
      by (intros f; unfold utf_def; cbv zeta; destruct (ident e _); now repeat split).
    assert (G : s_fonts (step c s) (font_key (fam_esc fam) sty) = Some (utf_def e (m (font_key (fam_esc fam) sty)) file)).
    { inversion Hd as [f1 s1 n1 b1 N1 D1|f1 s1 b1]; subst; cbn [RegModel.step].
      - unfold add_font. destruct n1 as [|c0 t0] eqn:En; [contradiction|]. rewrite <- En in *. cbv zeta. rewrite Hg, D1, Hm. cbn. apply put_same.
      - destruct He as [He|(n & He)]; [|discriminate He]. unfold add_bytes. rewrite He. cbv zeta. rewrite Hg, Hm. cbn. apply put_same. }
    exists (utf_def e (m (font_key (fam_esc fam) sty)) file), (font_key (fam_esc fam) sty). destruct (F file) as (F1 & F2 & F3 & F4 & F5).
    split; [|auto 10]. change (get_font fam' sty' (run post (step c s)) = Some (utf_def e (m (font_key (fam_esc fam) sty)) file)).
    apply (C78_keeps _ post fam sty); auto.
  Qed.

  (** Without an error the call has registered the face. *)
  Theorem C78_reported c s fam sty : adds c = Some (fam, sty) -> (forall f t b, c <> AddUTF8FontFromBytes f t b) ->
    s_err (step c s) = None -> get_font fam sty (step c s) <> None.
  Proof.
    intros Ha Hb He. unfold get_font.
    assert (R : forall f r s0, fam_esc f = fam_esc fam -> s_err (add_reader e f sty r s0) = None -> s_fonts (add_reader e f sty r s0) (font_key (fam_esc fam) sty) <> None).
    { intros f r s0 Hf. unfold add_reader. rewrite Hf. destruct (s_err s0) eqn:E; [intros K; congruence|].
      destruct (s_fonts s0 (font_key (fam_esc fam) sty)) eqn:F; [intros _; congruence|].
      destruct r as [b|x]; [|discriminate]. destruct (load e b) as [d|x]; [|discriminate]. intros _.
      destruct (register_got (font_key (fam_esc fam) sty) d None s0) as (d' & -> & _). discriminate. }
    destruct c; cbn [adds] in Ha; try discriminate Ha; injection Ha as -> ->; cbn [RegModel.step] in *.
    - revert He. unfold add_font. cbv zeta. name_it n.
      destruct (s_loader s) as [ld|]; [destruct (ld n); [apply R, esc_esc|]|]; (destruct (disk e _); [apply R, esc_esc|discriminate]).
    - revert He. unfold add_font. cbv zeta. name_it n.
      destruct (s_fonts s (font_key (fam_esc fam) sty)) eqn:F; [intros _; congruence|].
      assert (SE : forall x, s_err (set_error x s) <> None) by (intros x; unfold set_error; destruct (s_err s) eqn:X; [congruence|discriminate]).
      destruct (disk e _); [|intros K; now apply SE in K]. destruct (utf e _ _); [|intros K; now apply SE in K].
      intros _. cbn. rewrite put_same. discriminate.
    - revert He. unfold add_bytes. cbv zeta. destruct (s_err s) eqn:E; [congruence|]. destruct (s_fonts s (font_key (fam_esc fam) sty)) eqn:F; [intros _; congruence|].
      destruct (load e json) as [d|x]; [|discriminate]. intros _. destruct (register_got (font_key (fam_esc fam) sty) d (Some z) s) as (d' & -> & _). discriminate.
    - exfalso. now apply (Hb fam sty b).
    - now apply R.
  Qed.

  (** A call that adds one face leaves every other face alone (for families without a number sign, which stands for an escaped space). *)
  Theorem C78_others c s fam sty fam' sty' : adds c = Some (fam, sty) -> ~ In 35 fam -> ~ In 35 fam' -> is_style sty -> is_style sty' ->
    ~ same_face fam sty fam' sty' -> get_font fam' sty' (step c s) = get_font fam' sty' s.
  Proof.
    intros Ha N1 N2 S1 S2 Hn. unfold get_font.
    assert (K : font_key (fam_esc fam') sty' <> font_key (fam_esc fam) sty) by (intros X; apply Hn; symmetry in X; now apply key_inj in X).
    assert (G : forall d z s0, s_fonts (register (font_key (fam_esc fam) sty) d z s0) (font_key (fam_esc fam') sty') = s_fonts s0 (font_key (fam_esc fam') sty')).
    { intros d z s0. destruct (register_fonts (font_key (fam_esc fam) sty) d z s0) as (d' & -> & _). now apply put_other. }
    assert (R : forall f r s0, fam_esc f = fam_esc fam -> s_fonts (add_reader e f sty r s0) (font_key (fam_esc fam') sty') = s_fonts s0 (font_key (fam_esc fam') sty')).
    { intros f r s0 Hf. unfold add_reader. rewrite Hf. destruct (s_err s0); [reflexivity|]. destruct (s_fonts s0 (font_key (fam_esc fam) sty)); [reflexivity|].
      destruct r as [b|x]; [|reflexivity]. destruct (load e b) as [d|x]; [|reflexivity]. apply G. }
    destruct c; cbn [adds] in Ha; try discriminate Ha; injection Ha as -> ->; cbn [RegModel.step] in *.
    - unfold add_font. cbv zeta. name_it n.
      destruct (s_loader s) as [ld|]; [destruct (ld n); [apply R, esc_esc|]|]; (destruct (disk e _); [apply R, esc_esc|reflexivity]).
    - unfold add_font. cbv zeta. name_it n.
      destruct (s_fonts s (font_key (fam_esc fam) sty)); [reflexivity|].
      assert (SE : forall x, s_fonts (set_error x s) = s_fonts s) by (intros x; unfold set_error; now destruct (s_err s)).
      destruct (disk e _); [|now rewrite SE]. destruct (utf e _ _); [|now rewrite SE]. cbn. now apply put_other.
    - unfold add_bytes. cbv zeta. destruct (s_err s); [reflexivity|]. destruct (s_fonts s (font_key (fam_esc fam) sty)); [reflexivity|].
      destruct (load e json); [apply G|reflexivity].
    - unfold add_bytes. cbv zeta. destruct (s_err s); [reflexivity|]. destruct (s_fonts s (font_key (fam_esc fam) sty)); [reflexivity|].
      destruct b as [b|]; [destruct (utf e _ b); [|reflexivity]; cbn; now apply put_other|]. destruct (load e []); [apply G|reflexivity].
    - now apply R.
  Qed.

  (** ** Font files *)
  Definition writes (n k : bytes) (d : def B) : Prop := d_file d = n \/ d_tp d = bs "UTF8" /\ k = n.
  Lemma step_files c s n : (forall k d, s_fonts (step c s) k = Some d -> s_fonts s k = None -> ~ writes n k d) -> s_files (step c s) n = s_files s n.
  Proof.
    intros H. destruct (step_effect c s) as [_ R _|key d z R0 R1 R2 _|key d R0 R1 R2 _ R3 _]; [now rewrite R| |].
    - destruct (register_got key d z s) as (d' & G1 & G2 & G3 & _). rewrite R2, G3. rewrite <- R1 in G1. specialize (H key d' G1 R0).
      unfold writes in H. unfold with_file. destruct (d_file d') eqn:E; [reflexivity|]. rewrite <- E in *.
      destruct (beqb _ _); rewrite put_other; auto.
    - assert (G1 : s_fonts (step c s) key = Some d) by (rewrite R1; apply put_same). specialize (H key d G1 R0). unfold writes in H.
      destruct R3 as [->|(i & j & ->)]; [reflexivity|]. rewrite put_other by (intros X; apply H; left; now symmetry).
      apply put_other. intros X. apply H. right. now split.
  Qed.
  Lemma run_files cs s n : (forall k d, s_fonts (run cs s) k = Some d -> s_fonts s k = None -> ~ writes n k d) -> s_files (run cs s) n = s_files s n.
  Proof.
    revert s. induction cs as [|c cs IH]; intros s H; [reflexivity|]. cbn [RegModel.run fold_left]. fold (run cs (step c s)).
    transitivity (s_files (step c s) n).
    - apply IH. intros k d K1 K2. apply (H k d K1). destruct (s_fonts s k) eqn:E; [|reflexivity]. apply (step_keeps c) in E. congruence.
    - apply step_files. intros k d K1 K2. apply (H k d); [|exact K2]. exact (run_keeps cs _ k d K1).
  Qed.
  (** The file of a registered font has the lengths of its definition, and its contents when they were given, at the end of any
      history without an error in which no font registered later names the same file. *)
  Theorem C78_files_partial s c post fam sty b z d0 :
    defines e (s_dir s) (s_loader s) c fam sty b z -> parse e b = inl d0 -> get_font fam sty s = None -> d_file d0 <> [] ->
    s_err (run (c :: post) s) = None ->
    (forall k d, s_fonts (run (c :: post) s) k = Some d -> s_fonts (step c s) k = None -> ~ writes (d_file d0) k d) ->
    exists d i, get_font fam sty (run (c :: post) s) = Some d /\ s_files (run (c :: post) s) (d_file d0) = Some i /\ d_file d = d_file d0 /\ own_file d z i.
  Proof.
    intros Hd Hp Hg Hf He Hw. assert (E1 : s_err (step c s) = None) by exact (run_err_mono post (step c s) He).
    assert (E0 : s_err s = None) by exact (run_err_mono [c] s E1).
    pose proof (defines_step s c fam sty b z E0 Hg Hd) as S. destruct (load e b) as [d|x] eqn:L; [|rewrite S in E1; discriminate E1].
    pose proof (load_same b d0 d Hp L) as (K1 & K2 & K3 & K4 & K5 & K6 & K7 & K8).
    destruct (register_got (font_key (fam_esc fam) sty) d z s) as (d' & G1 & G2 & G3 & _). rewrite <- S in G1, G3.
    destruct (with_diff_facts d (s_diffs s)) as (_ & _ & _ & _ & W3 & _). rewrite <- G2 in *.
    destruct (with_file_own d' z (s_files s)) as (i & I1 & I2); [congruence|]. exists d', i. split; [|split; [|split]].
    - exact (run_keeps post _ _ _ G1).
    - change (run (c :: post) s) with (run post (step c s)). rewrite (run_files post (step c s) _ Hw), G3. rewrite <- K2, <- W3. exact I1.
    - congruence.
    - exact I2.
  Qed.

  (** Selecting a registered face selects its definition. *)
  Lemma drop_style t : is_style t -> drop 83 (drop 85 (up t)) = up t.
  Proof.
    intros H. assert (X : forall c, In c (up t) -> c = 66 \/ c = 73).
    { unfold is_style in H. assert (Y : Forall (fun c => lc c = 98 \/ lc c = 105) t).
      { assert (Z0 : Forall (fun c => c = 98 \/ c = 105) (map lc t)) by (cbn [In] in H; destruct H as [<-|[<-|[<-|[<-|[<-|[]]]]]]; repeat constructor; auto).
        clear H. induction t; [constructor|]. inversion Z0; subst. constructor; auto. }
      clear H. intros c K. unfold up in K. apply in_map_iff in K as (x & <- & K). rewrite Forall_forall in Y. specialize (Y x K).
      destruct Y as [Y|Y]; rewrite (lc_up x _ Y) by lia; lia. }
    revert X. generalize (up t) as l. intros l X. unfold drop. induction l as [|c l IH]; [reflexivity|]. cbn [filter].
    destruct (X c (or_introl eq_refl)) as [-> | ->]; cbn [Z.eqb Pos.eqb negb filter]; f_equal; apply IH; intros y Hy; apply X; now right.
  Qed.
  Theorem C78_selects s fam sty fam' sty' d : s_err s = None -> fam' <> [] -> is_style sty -> is_style sty' -> same_face fam sty fam' sty' ->
    get_font fam sty s = Some d -> s_cur (step (SetFont fam' sty') s) = Some d /\ s_err (step (SetFont fam' sty') s) = None.
  Proof.
    intros He Hn H1 H2 H3 H. unfold get_font in H. rewrite (key_same fam sty fam' sty' H1 H2 H3), key_norm in H. unfold norm in H.
    cbn [RegModel.step]. unfold set_font. rewrite He. cbv zeta. rewrite (drop_style sty' H2).
    replace (match fam_esc fam' with [] => s_fam s | _ => low (fam_esc fam') end) with (low (fam_esc fam')).
    2: { destruct (fam_esc fam') as [|c0 t0] eqn:E; [|reflexivity]. exfalso. rewrite fam_esc_eq in E. destruct fam' as [|c t]; [contradiction|].
         cbn [flat_map] in E. destruct (32 =? c); discriminate E. }
    rewrite H. unfold select. cbn [s_cur s_err]. rewrite H. now split.
  Qed.
End Props.

(** ** Cases *)
Section Cases.
  Let d_of (b : bytes) : def bytes :=
    {| d_tp := bs "TrueType"; d_file := bs "x.z"; d_diff := if beqb b (bs "j2") then bs "66 /Bdot" else []; d_diffn := if beqb b (bs "j3") then 7 else 0; d_orig := Z.of_nat (length b); d_size1 := 0; d_size2 := 0; d_id := []; d_body := b |}.
  Let dk (p : bytes) : got := if beqb p (bs "/font/Open Sansb.json") then inl (bs "j2") else inr (bs "no such file").
  Definition case_env : env bytes :=
    {| parse := fun b => if beqb b (bs "bad") then inr (bs "bad JSON") else inl (d_of b); ident := fun d => inl (d_body d);
       utf := fun k b => if beqb b (bs "bad") then inr (bs "bad font") else inl k; disk := dk; join := fun d f => d ++ bs "/" ++ f; core := fun f s => inl (f ++ s) |}.
  Let start : st bytes := new (bs "/font").
  Let history : list call := [AddFontFromBytes (bs "Open Sans") (bs "ib") (bs "j2") (bs "zz"); AddFontFromReader (bs "open sans") (bs "BI") (inl (bs "j9")); SetFont (bs "Arial") (bs "B");
                              AddUTF8FontFromBytes (bs "Deja") [] (Some (bs "ttf"))].
  (** the hypotheses of C78_first and C78_files_partial are met, with later calls for the same face and others *)
  Example C78_first_case :
    defines case_env (bs "/font") None (hd (SetError []) history) (bs "Open Sans") (bs "ib") (bs "j2") (Some (bs "zz")) /\
    get_font (bs "Open Sans") (bs "ib") start = None /\ is_style (bs "ib") /\ is_style (bs "BI") /\ same_face (bs "Open Sans") (bs "ib") (bs "OPEN sans") (bs "BI") /\
    s_err (RegModel.run case_env history start) = None /\
    (exists d, get_font (bs "OPEN sans") (bs "BI") (RegModel.run case_env history start) = Some d /\ d_diffn d = 1 /\ d_body d = bs "j2").
  Proof.
    split; [constructor|]. split; [reflexivity|]. split; [cbn; auto 6|]. split; [cbn; auto 6|]. split; [repeat split|]. split; [reflexivity|].
    eexists. split; [reflexivity|]. split; reflexivity.
  Qed.
  Example C78_files_case : exists i, s_files (RegModel.run case_env (firstn 2 history) start) (bs "x.z") = Some i /\ i_len1 i = 2 /\ i_data i = bs "zz".
  Proof. eexists. split; [vm_compute; reflexivity|]. split; reflexivity. Qed.
  Example C78_selects_case : s_cur (RegModel.run case_env (history ++ [SetFont (bs "OPEN SANS") (bs "Bi")]) start) =
    get_font (bs "open sans") (bs "bi") (RegModel.run case_env history start) /\ get_font (bs "open sans") (bs "bi") (RegModel.run case_env history start) <> None.
  Proof. split; [reflexivity|discriminate]. Qed.
  Example C78_others_case : ~ same_face (bs "Open Sans") (bs "B") (bs "Open Sans") (bs "I") /\
    get_font (bs "Open Sans") (bs "I") (RegModel.step case_env (AddFontFromBytes (bs "Open Sans") (bs "B") (bs "j2") []) start) = None.
  Proof. split; [intros (_ & H & _); discriminate H|reflexivity]. Qed.

  Example C78_utf8_case : reads_utf8 case_env (bs "/font") (AddUTF8FontFromBytes (bs "Deja") [] (Some (bs "ttf"))) (bs "Deja") [] (bs "ttf") [] /\
    (forall key, utf case_env key (bs "ttf") = inl key) /\ get_font (bs "Deja") [] start = None.
  Proof. split; [constructor|]. split; reflexivity. Qed.

  (** Two fonts whose definitions name the same file share one entry: the last one replaces the contents and the lengths of the first. *)
  Theorem C78_files_refuted : ~ (forall (B : Type) (e : env B) s c post fam sty b z d0,
    defines e (s_dir s) (s_loader s) c fam sty b z -> parse e b = inl d0 -> get_font fam sty s = None -> d_file d0 <> [] ->
    s_err (RegModel.run e (c :: post) s) = None ->
    exists d i, get_font fam sty (RegModel.run e (c :: post) s) = Some d /\ s_files (RegModel.run e (c :: post) s) (d_file d0) = Some i /\ own_file d z i).
  Proof.
    intros H. destruct (H bytes case_env start (AddFontFromBytes (bs "A") [] (bs "j2") (bs "first")) [AddFontFromBytes (bs "B") [] (bs "long definition") (bs "second")]
      (bs "A") [] (bs "j2") (Some (bs "first")) (d_of (bs "j2"))) as (d & i & _ & H2 & _ & _ & _ & _ & H3); [constructor|reflexivity|reflexivity|discriminate|reflexivity|].
    assert (X : i_data i = bs "second") by (vm_compute in H2; injection H2 as <-; reflexivity). rewrite X in H3. discriminate H3.
  Qed.
  (** AddUTF8FontFromBytes with bytes that are not a font registers nothing and reports nothing. *)
  Theorem C78_reported_refuted : ~ (forall (B : Type) (e : env B) c s fam sty, adds c = Some (fam, sty) ->
    s_err (RegModel.step e c s) = None -> get_font fam sty (RegModel.step e c s) <> None).
  Proof. intros H. now apply (H bytes case_env (AddUTF8FontFromBytes (bs "A") [] (Some (bs "bad"))) start (bs "A") []). Qed.
  (** AddFont of a file that is not there replaces an earlier error. *)
  Theorem C78_first_error_refuted : ~ (forall (B : Type) (e : env B) c s x, s_err s = Some x -> s_err (RegModel.step e c s) = Some x).
  Proof. intros H. specialize (H bytes case_env (AddFont (bs "A") [] []) (with_err (bs "first") start) (bs "first") eq_refl). discriminate H. Qed.
  (** The default name of a family with a space holds "#20": the space is escaped before it would be removed. *)
  Theorem C78_default_name_refuted : ~ (forall (B : Type) (e : env B) s fam sty b d0, s_loader s = None -> s_err s = None -> get_font fam sty s = None ->
    disk e (join e (s_dir s) (default_name fam sty)) = inl b -> parse e b = inl d0 -> ident e (no_file d0) <> inr (bs "no such file") ->
    s_err (RegModel.step e (AddFont fam sty []) s) = None).
  Proof.
    intros H. set (e := {| parse := parse case_env; ident := ident case_env; utf := utf case_env; join := join case_env; core := core case_env;
      disk := fun p => if beqb p (bs "/font/OpenSansb.json") then inl (bs "j2") else inr (bs "no such file") |}).
    specialize (H bytes e start (bs "Open Sans") (bs "b") (bs "j2") (d_of (bs "j2")) eq_refl eq_refl eq_refl eq_refl eq_refl). cbv in H.
    assert (X : Some (bs "no such file") = None); [apply H|]; discriminate.
  Qed.
  (** A definition that carries a number but no differences keeps the number, and so uses the encoding of another font. *)
  Theorem C78_no_encoding_refuted : ~ (forall (B : Type) (e : env B) dir cs fam sty d,
    get_font fam sty (RegModel.run e cs (new dir)) = Some d -> d_diff d = [] -> d_diffn d = 0).
  Proof.
    intros H. specialize (H bytes case_env (bs "/font") [AddFontFromBytes (bs "A") [] (bs "j3") []] (bs "A") []). cbv in H.
    specialize (H _ eq_refl eq_refl). discriminate H.
  Qed.
  (** A family name with a number sign can be another family: "a b" and "a#20b". *)
  Theorem C78_others_refuted : ~ (forall (B : Type) (e : env B) c s fam sty fam' sty', adds c = Some (fam, sty) -> is_style sty -> is_style sty' ->
    ~ same_face fam sty fam' sty' -> get_font fam' sty' (RegModel.step e c s) = get_font fam' sty' s).
  Proof.
    intros H. specialize (H bytes case_env (AddFontFromBytes (bs "a b") [] (bs "j2") []) start (bs "a b") [] (bs "a#20b") [] eq_refl).
    specialize (H (or_introl eq_refl) (or_introl eq_refl)). assert (N : ~ same_face (bs "a b") [] (bs "a#20b") []) by (intros (X & _); discriminate X).
    specialize (H N). discriminate H.
  Qed.
End Cases.
Print Assumptions C78_encodings.
Print Assumptions C78_encodings_once.
Print Assumptions C78_keeps.
Print Assumptions C78_first.
Print Assumptions C78_utf8_first.
Print Assumptions C78_reported.
Print Assumptions C78_others.
Print Assumptions C78_files_partial.
Print Assumptions C78_selects.
Print Assumptions C78_files_refuted.
Print Assumptions C78_reported_refuted.
Print Assumptions C78_first_error_refuted.
Print Assumptions C78_default_name_refuted.
Print Assumptions C78_no_encoding_refuted.
Print Assumptions C78_others_refuted.
