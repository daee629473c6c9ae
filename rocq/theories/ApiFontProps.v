(** C38: font selection. *)
From Verif Require Import Base TextModel ApiModel ApiProofs ApiErr ApiQuiet ApiTurn ApiLife ApiTrack ApiKeep ApiInst ApiSync ApiKeepProps ApiBreakProps ApiColorProps ApiRes.
From Coq Require Import String.
Local Open Scope string_scope.
Local Open Scope list_scope.
Local Open Scope Z_scope.

(** ** Specification *)
(** a letter, given as its upper case code, occurs in a style string in either case *)
Definition lists (c : Z) (st : bytes) : bool := existsb (fun d => (d =? c) || (d =? c + 32)) st.
Definition times (c : Z) (st : bytes) : nat := List.length (filter (fun d => (d =? c) || (d =? c + 32)) st).
Definition B_ := 66. Definition I_ := 73. Definition U_ := 85. Definition S_ := 83.
(** a combination of B, I, U and S, in any order and case: B and I at most once *)
Definition style_string (st : bytes) : Prop :=
  Forall (fun c => In c [66; 73; 83; 85; 98; 105; 115; 117]) st /\ (times B_ st <= 1)%nat /\ (times I_ st <= 1)%nat.
(** the name of the face: B before I *)
Definition face (st : bytes) : bytes := (if lists B_ st then [66] else []) ++ (if lists I_ st then [73] else []).
(** two family names that differ in case only, and two styles with the same attributes *)
Definition same_family (f g : bytes) : Prop := lower f = lower g.
Definition same_style (a b : bytes) : Prop :=
  style_string a /\ style_string b /\ lists B_ a = lists B_ b /\ lists I_ a = lists I_ b /\ lists U_ a = lists U_ b /\ lists S_ a = lists S_ b.

(** ** Strings *)
Lemma existsb_ext {X} (f g : X -> bool) l : (forall x, In x l -> f x = g x) -> existsb f l = existsb g l.
Proof.
  induction l as [|x l IH]; [reflexivity|]. intros H. cbn. rewrite (H x) by now left. f_equal. apply IH. intros y Hy. apply H. now right.
Qed.
Lemma filter_ext_in' {X} (f g : X -> bool) l : (forall x, In x l -> f x = g x) -> filter f l = filter g l.
Proof. apply filter_ext_in. Qed.
Lemma style_letter c : In c [66; 73; 83; 85; 98; 105; 115; 117] ->
  c = 66 \/ c = 73 \/ c = 83 \/ c = 85 \/ c = 98 \/ c = 105 \/ c = 115 \/ c = 117.
Proof. cbn. intuition lia. Qed.

Lemma has_upper c st : Forall (fun c => In c [66; 73; 83; 85; 98; 105; 115; 117]) st -> In c [66; 73; 83; 85] ->
  has c (upper st) = lists c st.
Proof.
  intros H Hc. unfold has, upper, lists.
  induction H as [|d st Hd H IH]; [reflexivity|]. cbn [map existsb]. rewrite IH. f_equal.
  apply style_letter in Hd. cbn in Hc. destruct Hd as [-> | [-> | [-> | [-> | [-> | [-> | [-> | ->]]]]]]];
    destruct Hc as [<-|[<-|[<-|[<-|[]]]]]; reflexivity.
Qed.
Lemma without_if c b : (if has c b then without c b else b) = without c b.
Proof. destruct (has c b) eqn:E; [reflexivity|]. symmetry. now apply without_id. Qed.

(** what is left of a style string *)
Lemma core_letters st : Forall (fun c => In c [66; 73; 83; 85; 98; 105; 115; 117]) st ->
  let b := without 83 (without 85 (upper st)) in
  Forall (fun c => c = 66 \/ c = 73) b /\ List.length (filter (Z.eqb 66) b) = times 66 st /\ List.length (filter (Z.eqb 73) b) = times 73 st.
Proof.
  cbv zeta. induction 1 as [|d st Hd H IH]; [repeat split; constructor|]. destruct IH as (I1 & I2 & I3).
  apply style_letter in Hd. destruct Hd as [-> | [-> | [-> | [-> | [-> | [-> | [-> | ->]]]]]]];
    unfold upper, without, times in *; cbn -[Z.eqb Nat.eqb]; cbn; repeat split; auto; try (constructor; auto).
Qed.
Lemma short_letters b : Forall (fun c => c = 66 \/ c = 73) b -> (List.length (filter (Z.eqb 66) b) <= 1)%nat ->
  (List.length (filter (Z.eqb 73) b) <= 1)%nat -> In b [[]; [66]; [73]; [66; 73]; [73; 66]].
Proof.
  intros H. destruct H as [|a b Ha H]; [now left|]. destruct H as [|c b Hc H].
  - destruct Ha as [->| ->]; cbn; auto.
  - destruct H as [|d b Hd H].
    + destruct Ha as [->| ->], Hc as [->| ->]; cbn; intros; try lia; auto 6.
    + destruct Ha as [->| ->], Hc as [->| ->], Hd as [->| ->]; cbn; intros; lia.
Qed.
Lemma times_lists c st : lists c st = negb (Nat.eqb (times c st) 0).
Proof.
  unfold lists, times. induction st as [|d st IH]; [reflexivity|]. cbn [existsb filter]. destruct ((d =? c) || (d =? c + 32)); [reflexivity|]. exact IH.
Qed.
Lemma norm_face st : style_string st -> norm_style st = face st.
Proof.
  intros (H1 & H2 & H3). unfold norm_style. cbv zeta. rewrite !without_if.
  destruct (core_letters st H1) as (C1 & C2 & C3).
  set (b := without 83 (without 85 (upper st))) in *. clearbody b.
  unfold face. rewrite !times_lists. unfold B_, I_ in *. rewrite <- C2, <- C3 in *.
  pose proof (short_letters b C1 H2 H3) as [<-|[<-|[<-|[<-|[<-|[]]]]]]; reflexivity.
Qed.
Lemma flag_u st : style_string st -> has 85 (upper st) = lists U_ st.
Proof. intros (H & _). apply has_upper; [exact H|cbn; auto 6]. Qed.
Lemma flag_s st : style_string st -> has 83 (without 85 (upper st)) = lists S_ st.
Proof.
  intros (H & _). rewrite <- (has_upper S_ st H) by (cbn; auto 6).
  unfold has, without, S_. induction (upper st) as [|d l IH]; [reflexivity|]. cbn [filter existsb].
  destruct (Z.eqb_spec d 85) as [->|N]; cbn [negb existsb]; [exact IH|]. now rewrite IH.
Qed.
Lemma low1_space x : low1 x = 32 <-> x = 32.
Proof. unfold low1. destruct ((65 <=? x) && (x <=? 90)) eqn:E; lia. Qed.
Lemma lower_escape f g : lower f = lower g -> lower (fam_escape f) = lower (fam_escape g).
Proof.
  unfold fam_escape. change (bs " ") with [32]. rewrite !replace_all_byte.
  revert g. induction f as [|x f IH]; intros [|y g] H; try discriminate H; [reflexivity|].
  cbn [lower map] in H. unfold lower in H. cbn [map] in H. injection H as H1 H2.
  cbn [flat_map]. unfold lower in *. rewrite !map_app, (IH g H2). f_equal.
  pose proof (low1_space x) as X. pose proof (low1_space y) as Y.
  destruct (Z.eqb_spec 32 x) as [E1|E1], (Z.eqb_spec 32 y) as [E2|E2]; [reflexivity| | |cbn [map]; now rewrite H1].
  - exfalso. apply E2. symmetry. apply Y. rewrite <- H1. apply X. now symmetry.
  - exfalso. apply E1. symmetry. apply X. rewrite H1. apply Y. now symmetry.
Qed.
Lemma escape_nil f g : lower f = lower g -> (fam_escape f = [] <-> fam_escape g = []).
Proof.
  intros H. pose proof (lower_escape _ _ H) as E. split; intros X; rewrite X in E;
    [destruct (fam_escape g)|destruct (fam_escape f)]; auto; discriminate E.
Qed.

Section Props.
  Context {A : arith} (core_font : bytes -> bytes -> fontdef + bytes)
    (asm : st A -> option (bytes * option error)).
  Notation run := (run core_font asm).
  Notation exec := (exec core_font asm).
  Implicit Types s : st A.

  (** Any order and case of the letters, and any case of the family, selects
      the same font: the two calls have the same effect in every state. *)
  Theorem C38_spelling n fam fam' sty sty' size s : same_family fam fam' -> same_style sty sty' ->
    exec (S n) (SetFont fam sty size) s = exec (S n) (SetFont fam' sty' size) s.
  Proof.
    intros Hf (S1 & S2 & SB & SI & SU & SS). cbn [exec step]. f_equal. unfold set_font. destruct (failed s); [reflexivity|].
    rewrite !norm_face, !flag_u, !flag_s by assumption. unfold face. rewrite SB, SI, SU, SS.
    replace (match fam_escape fam with [] => f_fam (t_fnt s) | _ :: _ => lower (fam_escape fam) end)
      with (match fam_escape fam' with [] => f_fam (t_fnt s) | _ :: _ => lower (fam_escape fam') end); [reflexivity|].
    pose proof (lower_escape _ _ Hf) as E. destruct (escape_nil _ _ Hf) as [N1 N2].
    destruct (fam_escape fam) eqn:E1, (fam_escape fam') eqn:E2; auto.
    - now rewrite N1 in E2.
    - now rewrite N2 in E1.
  Qed.

  (** what a successful selection does: family, style, size in points and in
      units, flags, the font, and the operator on the current page *)
  Definition selected s s' (fam sty : bytes) (fd : fontdef) (size : num A) : Prop :=
    let z := if neq A size (ofZ A 0) then f_pt (t_fnt s) else size in
    failed s' = false /\ f_fam (t_fnt s') = fam /\ f_style (t_fnt s') = face sty /\ f_cur (t_fnt s') = fd /\
    f_pt (t_fnt s') = z /\ f_size (t_fnt s') = ndiv A z (x_k (t_geo s)) /\
    f_ul (t_fnt s') = lists U_ sty /\ f_so (t_fnt s') = lists S_ sty /\
    t_gfx s' = t_gfx s /\ t_geo s' = t_geo s /\ t_nest s' = t_nest s /\
    (l_state (t_life s) = 2 -> (1 <= pageno s < List.length (l_pages (t_life s)))%nat ->
       ops_of s' (pageno s) = ops_of s (pageno s) ++ [Tf (fd_id fd) z]).

  Lemma select_selected s s1 fam sty fd size : failed s = false -> style_string sty ->
    s1 = on_fnt (fun x => sf_so (lists S_ sty) (sf_ul (lists U_ sty) x)) s \/
      (exists k d, s1 = on_fnt (fun x => sf_table (f_table x ++ [(k, d)]) x) (on_fnt (fun x => sf_so (lists S_ sty) (sf_ul (lists U_ sty) x)) s)) ->
    selected s (select_font fam (face sty) fd (if neq A size (ofZ A 0) then f_pt (t_fnt s) else size) s1) fam sty fd size.
  Proof.
    intros Hf Hs Hs1. set (z := if neq A size (ofZ A 0) then f_pt (t_fnt s) else size).
    assert (E : failed s1 = false /\ t_gfx s1 = t_gfx s /\ t_geo s1 = t_geo s /\ t_nest s1 = t_nest s /\ t_life s1 = t_life s /\
      f_ul (t_fnt s1) = lists U_ sty /\ f_so (t_fnt s1) = lists S_ sty).
    { destruct Hs1 as [->|(k & d & ->)]; cbn; repeat split; exact Hf. }
    clear Hs1. destruct E as (E1 & E2 & E3 & E4 & E5 & E6 & E7).
    unfold selected. fold z. unfold select_font. unfold failed in *. rewrite eop_errof, eop_fnt, eop_gfx, eop_geo, eop_nest.
    cbn -[emit_on_page]. rewrite E3. repeat split; auto.
    intros H2 Hp. unfold emit_on_page, on_page. set (s2 := on_fnt _ s1).
    assert (L : t_life s2 = t_life s) by exact E5.
    assert (PN : pageno s2 = pageno s) by (unfold pageno; now rewrite L).
    assert (OP : forall j, ops_of s2 j = ops_of s j) by (intros j; unfold ops_of; now rewrite L).
    rewrite PN. destruct (Nat.eqb_spec (pageno s) 0); [lia|]. cbn [negb].
    rewrite (emit_ops asm) by (rewrite ?PN, ?L; auto; lia). rewrite PN, Nat.eqb_refl, OP. reflexivity.
  Qed.

  (** the families: the standard names in any case, Arial standing for Helvetica *)
  Definition std_family (fam : bytes) : option bytes :=
    let f := lower fam in
    if beqb f (bs "courier") then Some (bs "courier")
    else if beqb f (bs "helvetica") || beqb f (bs "arial") then Some (bs "helvetica")
    else if beqb f (bs "times") then Some (bs "times") else None.

  Lemma std_escape fam g : std_family fam = Some g -> fam_escape fam = fam /\ fam <> [].
  Proof.
    intros H. split; [|intros ->; discriminate H].
    apply fam_escape_id. unfold std_family in H. cbv zeta in H.
    assert (E : has 32 (lower fam) = has 32 fam).
    { unfold has, lower. clear H. induction fam as [|x l IH]; [reflexivity|]. cbn [map existsb]. rewrite IH. f_equal.
      pose proof (low1_space x) as X. destruct (Z.eqb_spec 32 (low1 x)) as [E1|E1], (Z.eqb_spec 32 x) as [E2|E2]; auto; exfalso; [apply E2|apply E1]; symmetry; apply X; now symmetry. }
    rewrite <- E. clear E.
    destruct (beqb (lower fam) (bs "courier")) eqn:E1; [apply beqb_eq in E1; now rewrite E1|].
    destruct (beqb (lower fam) (bs "helvetica")) eqn:E2; [apply beqb_eq in E2; now rewrite E2|].
    destruct (beqb (lower fam) (bs "arial")) eqn:E3; [apply beqb_eq in E3; now rewrite E3|].
    destruct (beqb (lower fam) (bs "times")) eqn:E4; [apply beqb_eq in E4; now rewrite E4|]. discriminate H.
  Qed.

  (** A standard family that nothing was added under: the font of the library
      is loaded and selected; Arial is Helvetica. *)
  Theorem C38_standard n fam g sty size s fd : failed s = false -> std_family fam = Some g -> style_string sty ->
    assoc (lower fam ++ face sty) (f_table (t_fnt s)) = None -> assoc (g ++ face sty) (f_table (t_fnt s)) = None ->
    core_font g (face sty) = inl fd ->
    exists s', exec (S n) (SetFont fam sty size) s = Some s' /\ selected s s' g sty fd size /\
      f_table (t_fnt s') = f_table (t_fnt s) ++ [(g ++ face sty, fd)].
  Proof.
    intros Hf Hg Hs T1 T2 Hc. eexists. split; [reflexivity|]. unfold set_font. rewrite Hf.
    destruct (std_escape _ _ Hg) as [-> Hn]. rewrite norm_face, flag_u, flag_s by assumption.
    replace (match fam with [] => f_fam (t_fnt s) | _ :: _ => lower fam end) with (lower fam) by (destruct fam; [contradiction|reflexivity]).
    cbv zeta. set (s1 := on_fnt _ s).
    change (f_table (t_fnt s1)) with (f_table (t_fnt s)). change (f_pt (t_fnt s1)) with (f_pt (t_fnt s)). rewrite T1.
    assert (G : (if beqb (lower fam) (bs "arial") then bs "helvetica" else lower fam) = g /\ existsb (beqb g) core_families = true /\
      beqb g (bs "symbol") = false /\ beqb g (bs "zapfdingbats") = false /\ lower g = g /\ has 32 g = false /\ upper (face sty) = face sty /\ beqb (face sty) (bs "IB") = false).
    { assert (FS : upper (face sty) = face sty /\ beqb (face sty) (bs "IB") = false)
        by (unfold face; destruct (lists B_ sty), (lists I_ sty); split; reflexivity).
      destruct FS as [FS1 FS2].
      unfold std_family in Hg. cbv zeta in Hg.
      destruct (beqb (lower fam) (bs "courier")) eqn:E1; [apply beqb_eq in E1; rewrite E1; injection Hg as <-; repeat split; auto|].
      destruct (beqb (lower fam) (bs "helvetica")) eqn:E2; [apply beqb_eq in E2; rewrite E2; injection Hg as <-; repeat split; auto|].
      destruct (beqb (lower fam) (bs "arial")) eqn:E3; [injection Hg as <-; repeat split; auto|].
      destruct (beqb (lower fam) (bs "times")) eqn:E4; [apply beqb_eq in E4; rewrite E4; injection Hg as <-; repeat split; auto|]. discriminate Hg. }
    destruct G as (-> & G2 & G3 & G4 & G5 & G6 & G7 & G8). rewrite G2, G3, G4, T2, Hc.
    unfold add_font. change (failed s1) with (failed s). rewrite Hf. cbv zeta.
    rewrite (fam_escape_id _ G6). unfold font_key. cbv zeta. rewrite G5, G7, G8.
    change (f_table (t_fnt s1)) with (f_table (t_fnt s)). rewrite T2. set (s2 := on_fnt _ s1).
    change (failed s2) with (failed s). rewrite Hf.
    change (f_table (t_fnt s2)) with (f_table (t_fnt s) ++ [(g ++ face sty, fd)]). rewrite assoc_app, T2. cbn [assoc]. rewrite beqb_refl.
    split.
    - apply select_selected; auto. right. exists (g ++ face sty), fd. reflexivity.
    - unfold select_font. rewrite eop_fnt. reflexivity.
  Qed.

  (** A font that was added, or loaded before, is selected by its name. *)
  Theorem C38_known n fam sty size s fd : failed s = false -> fam <> [] -> style_string sty ->
    assoc (lower (fam_escape fam) ++ face sty) (f_table (t_fnt s)) = Some fd ->
    exists s', exec (S n) (SetFont fam sty size) s = Some s' /\ selected s s' (lower (fam_escape fam)) sty fd size /\
      f_table (t_fnt s') = f_table (t_fnt s).
  Proof.
    intros Hf Hn Hs T1. eexists. split; [reflexivity|]. unfold set_font. rewrite Hf.
    rewrite norm_face, flag_u, flag_s by assumption.
    assert (EN : fam_escape fam <> []).
    { unfold fam_escape. change (bs " ") with [32]. rewrite replace_all_byte. destruct fam as [|x fam]; [contradiction|].
      cbn [flat_map]. destruct (32 =? x); discriminate. }
    replace (match fam_escape fam with [] => f_fam (t_fnt s) | _ :: _ => lower (fam_escape fam) end) with (lower (fam_escape fam))
      by (destruct (fam_escape fam); [contradiction|reflexivity]).
    cbv zeta. set (s1 := on_fnt _ s).
    change (f_table (t_fnt s1)) with (f_table (t_fnt s)). change (f_pt (t_fnt s1)) with (f_pt (t_fnt s)). rewrite T1.
    split; [apply select_selected; auto|]. unfold select_font. rewrite eop_fnt. reflexivity.
  Qed.

  (** AddFont under a name, SetFont by any spelling of the name: that font;
      and fonts added under other names are not disturbed. *)
  Definition bold_italic (st : bytes) : Prop := style_string st /\ lists U_ st = false /\ lists S_ st = false.
  Lemma font_key_face fam sty : bold_italic sty -> font_key (fam_escape fam) sty = lower (fam_escape fam) ++ face sty.
  Proof.
    intros (Hs & HU & HS). unfold font_key. cbv zeta. f_equal. rewrite <- norm_face by exact Hs. unfold norm_style. cbv zeta.
    pose proof (flag_u _ Hs) as U1. pose proof (flag_s _ Hs) as S1. rewrite HU in U1. rewrite HS in S1. rewrite U1.
    rewrite (without_id _ _ U1) in S1. rewrite S1. reflexivity.
  Qed.
  Theorem C38_added n fam fam' sty sty' size s s1 s2 fd : failed s = false -> fam <> [] -> bold_italic sty ->
    same_family fam fam' -> style_string sty' -> face sty' = face sty ->
    assoc (lower (fam_escape fam) ++ face sty) (f_table (t_fnt s)) = None ->
    exec (S n) (AddFontDef fam sty (inl fd)) s = Some s1 -> exec (S n) (SetFont fam' sty' size) s1 = Some s2 ->
    selected s1 s2 (lower (fam_escape fam)) sty' fd size /\ f_table (t_fnt s2) = f_table (t_fnt s) ++ [(lower (fam_escape fam) ++ face sty, fd)].
  Proof.
    intros Hf Hn Hb Hsf Hs' Hface T1 E1 E2. cbn [exec step] in E1. injection E1 as <-.
    set (s1 := add_font fam sty (inl fd) s) in *.
    assert (X : s1 = on_fnt (fun x => sf_table (f_table x ++ [(lower (fam_escape fam) ++ face sty, fd)]) x) s).
    { unfold s1, add_font. rewrite Hf. cbv zeta. rewrite font_key_face by exact Hb. now rewrite T1. }
    clearbody s1. rewrite <- (lower_escape _ _ Hsf) || idtac.
    assert (Hn' : fam' <> []) by (intros ->; destruct fam; [contradiction|discriminate Hsf]).
    assert (T2 : assoc (lower (fam_escape fam') ++ face sty') (f_table (t_fnt s1)) = Some fd).
    { rewrite <- (lower_escape _ _ Hsf), Hface, X. cbn. rewrite assoc_app, T1. cbn. now rewrite beqb_refl. }
    destruct (C38_known n fam' sty' size s1 fd) as (s2' & Y1 & Y2 & Y3); auto.
    { subst s1. exact Hf. }
    rewrite E2 in Y1. injection Y1 as <-. rewrite (lower_escape _ _ Hsf). split; [exact Y2|]. rewrite Y3, X. cbn. now rewrite (lower_escape _ _ Hsf).
  Qed.

  (** different names are different entries *)
  Theorem C38_names fam fam' sty sty' : lower (fam_escape fam) ++ face sty = lower (fam_escape fam') ++ face sty' ->
    lower (fam_escape fam) = lower (fam_escape fam') /\ face sty = face sty'.
  Proof.
    assert (LB : forall l f b, lower l = f ++ [b] -> b <> 66 /\ b <> 73).
    { intros l f b H. assert (I : In b (lower l)) by (rewrite H; apply in_or_app; right; now left).
      unfold lower in I. apply in_map_iff in I as (x & <- & _). unfold low1. destruct ((65 <=? x) && (x <=? 90)) eqn:E; lia. }
    assert (K : forall X Y a b, X ++ [a] = Y ++ [b] -> a = b /\ X = Y :> bytes).
    { intros X Y a b H. apply app_inj_tail in H. tauto. }
    set (f := lower (fam_escape fam)). set (g := lower (fam_escape fam')).
    assert (Lf := LB (fam_escape fam)). assert (Lg := LB (fam_escape fam')). fold f in Lf. fold g in Lg. clearbody f g.
    unfold face. intros H.
    destruct (lists B_ sty), (lists I_ sty), (lists B_ sty'), (lists I_ sty'); cbn [app] in H |- *; rewrite ?app_nil_r in H; auto;
      try change [66; 73] with ([66] ++ [73]) in H; try rewrite !app_assoc in H;
      repeat match goal with
      | H : _ ++ [_] = _ ++ [_] |- _ => apply K in H as [? H]
      end; subst; auto; try lia;
      try (specialize (Lf _ _ eq_refl); lia); try (specialize (Lg _ _ eq_refl); lia);
      try (symmetry in H; specialize (Lf _ _ H); lia); try (specialize (Lf _ _ H); lia); try (specialize (Lg _ _ H); lia); try (symmetry in H; specialize (Lg _ _ H); lia).
  Qed.

  (** An undefined font: an error; the current font, its family, style and
      sizes, the table, the pages and everything else stay; but the underline
      and strike-out flags are those of the new style string. *)
  Theorem C38_undefined_partial n fam sty size s : failed s = false -> fam <> [] -> style_string sty ->
    assoc (lower (fam_escape fam) ++ face sty) (f_table (t_fnt s)) = None ->
    ~ In (lower (fam_escape fam)) [bs "arial"; bs "courier"; bs "helvetica"; bs "times"; bs "symbol"; bs "zapfdingbats"] ->
    exists s' e, exec (S n) (SetFont fam sty size) s = Some s' /\ errof s' = Some e /\
      s' = force_err e (on_fnt (fun x => sf_so (lists S_ sty) (sf_ul (lists U_ sty) x)) s).
  Proof.
    intros Hf Hn Hs T1 HN. eexists. exists (EFont (lower (fam_escape fam)) (face sty)). split; [reflexivity|]. unfold set_font. rewrite Hf.
    rewrite norm_face, flag_u, flag_s by assumption.
    assert (EN : fam_escape fam <> []).
    { unfold fam_escape. change (bs " ") with [32]. rewrite replace_all_byte. destruct fam as [|x fam]; [contradiction|].
      cbn [flat_map]. destruct (32 =? x); discriminate. }
    replace (match fam_escape fam with [] => f_fam (t_fnt s) | _ :: _ => lower (fam_escape fam) end) with (lower (fam_escape fam))
      by (destruct (fam_escape fam); [contradiction|reflexivity]).
    cbv zeta. set (s1 := on_fnt _ s). change (f_table (t_fnt s1)) with (f_table (t_fnt s)). rewrite T1.
    set (g := lower (fam_escape fam)) in *. clearbody g.
    destruct (beqb g (bs "arial")) eqn:E1; [apply beqb_eq in E1; exfalso; apply HN; left; auto|].
    destruct (existsb (beqb g) core_families) eqn:E2; [|split; reflexivity].
    exfalso. apply HN. apply existsb_exists in E2 as (x & Hx & E2). apply beqb_eq in E2. subst x. now right.
  Qed.
End Props.

Print Assumptions C38_spelling.
Print Assumptions C38_standard.
Print Assumptions C38_known.
Print Assumptions C38_added.
Print Assumptions C38_names.
Print Assumptions C38_undefined_partial.

(** *** Examples and refutations *)
Definition font_view (s : st arithZ) := (fd_name (f_cur (t_fnt s)), f_style (t_fnt s), f_ul (t_fnt s), f_so (t_fnt s), f_pt (t_fnt s), failed s).
Example C38_styles_ex : same_style (bs "ubIs") (bs "BISU") /\ same_family (bs "ARIAL") (bs "Arial") /\ face (bs "ubIs") = bs "BI".
Proof.
  assert (W : forall st, forallb (fun c => existsb (Z.eqb c) [66; 73; 83; 85; 98; 105; 115; 117]) st = true ->
    Forall (fun c => In c [66; 73; 83; 85; 98; 105; 115; 117]) st).
  { intros st H. apply Forall_forall. intros c Hc. rewrite forallb_forall in H. specialize (H c Hc).
    apply existsb_exists in H as (y & Hy & E). apply Z.eqb_eq in E. now subst. }
  repeat split; try apply W; try reflexivity; vm_compute; lia.
Qed.
Example C38_standard_ex : after [AddPage; SetFont (A := arithZ) (bs "Arial") (bs "ubIs") 12] font_view =
  Some (bs "helveticaBI", bs "BI", true, true, 12, false).
Proof. vm_compute. reflexivity. Qed.
Example C38_added_ex : after [AddPage; AddFontDef (bs "My Font") (bs "ib") (fonts_ex (bs "mine") []); SetFont (A := arithZ) (bs "MY FONT") (bs "BuI") 9] font_view =
  Some (bs "mine", bs "BI", true, false, 9, false).
Proof. vm_compute. reflexivity. Qed.
(** C38 in full is false: the flags change although the font is refused, *)
Theorem C38_flags_refuted :
  after [AddPage; SetFont (A := arithZ) (bs "Times") [] 12; SetFont (A := arithZ) (bs "Nowhere") (bs "US") 14; ClearError] font_view =
  Some (bs "times", [], true, true, 12, false).
Proof. vm_compute. reflexivity. Qed.
(** and Symbol selects ZapfDingbats. *)
Theorem C38_symbol_refuted :
  after [AddPage; SetFont (A := arithZ) (bs "Symbol") [] 12] font_view = Some (bs "zapfdingbats", [], false, false, 12, false).
Proof. vm_compute. reflexivity. Qed.
