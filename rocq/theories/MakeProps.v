(** C75, C76, C77: the definitions that MakeFont writes. *)
From Verif Require Import Base DocModel TtfSpec TtfModel TtfProofs TtfCmap CutSpec CutModel CutProofs CutCmap CutRead CutExample FontSpec FontModel FontProofs FontProps MakeSpec MakeModel MakeProofs.
From Coq Require Import String.
Open Scope Z_scope.
Notation length := List.length.
Notation concat := List.concat.

(** the flags of a descriptor: nonsymbolic always, fixed pitch and italic as said *)
Definition flags_are (fl : Z) (fixed italic : Prop) : Prop := forall i, 0 <= i -> Z.testbit fl i = true <-> i = 5 \/ (i = 0 /\ fixed) \/ (i = 6 /\ italic).
(** ** C75: the definition of a TrueType font *)
Record tt_definition (rnd : Z -> Z -> Z) (T : tables) (o : Z) (ps : bytes) (le : list line) (embed : bool) (f base enc_base : bytes) (d : fdef) (z : option bytes) : Prop := {
  td_type : d_type d = bs "TrueType" /\ d_name d = ps /\ d_enc d = enc_base;
  td_heights : k_asc (d_desc d) = rnd (u16 (T_head T) 18) (i16 (T_os2 T) 68) /\ k_desc (d_desc d) = rnd (u16 (T_head T) 18) (i16 (T_os2 T) 70);
  td_cap : let cap := rnd (u16 (T_head T) 18) (if u16 (T_os2 T) 0 <? 2 then 0 else i16 (T_os2 T) 88) in k_cap (d_desc d) = if cap =? 0 then k_asc (d_desc d) else cap;
  td_box : k_box (d_desc d) = (rnd (u16 (T_head T) 18) (i16 (T_head T) 36), rnd (u16 (T_head T) 18) (i16 (T_head T) 38), rnd (u16 (T_head T) 18) (i16 (T_head T) 40), rnd (u16 (T_head T) 18) (i16 (T_head T) 42));
  td_angle : k_angle (d_desc d) = i16 (T_post T) 4;
  td_flags : flags_are (k_flags (d_desc d)) (u32 (T_post T) 12 <> 0) (i16 (T_post T) 4 <> 0);
  td_stem : k_stem (d_desc d) = if Z.testbit (u16 (T_os2 T) 62) 5 then 120 else 70;
  td_underline : d_up d = rnd (u16 (T_head T) 18) (i16 (T_post T) 8) /\ d_ut d = rnd (u16 (T_head T) 18) (i16 (T_post T) 10);
  td_missing : k_missing (d_desc d) = rnd (u16 (T_head T) 18) (advance_of T 0);
  (** the width of a code is that of the glyph of its character, or of glyph 0 *)
  td_widths : len (d_cw d) = 256 /\ forall j, 0 <= j < 256 -> nth_error (d_cw d) (Z.to_nat j) =
    Some (rnd (u16 (T_head T) 18) (advance_of T (if beqb (name_at le j) (bs ".notdef") then 0 else char_glyph (T_cmap T) o (snd (encoded le j)))));
  td_embedded : d_size1 d = 0 /\ d_size2 d = 0 /\ (if embed then z = Some f /\ d_orig d = len f /\ d_file d = base ++ bs ".z" else z = None /\ d_orig d = 0 /\ d_file d = []) }.
Definition C75_statement : Prop := forall rnd scan ref fs dir base ext name edir ebase eext ename embed f T o ps le lr,
  file_name dir base ext name -> In (ascii_lower ext) [bs "ttf"; bs "otf"] -> file_name edir ebase eext ename ->
  fs name = Some f -> Forall is_byte f -> extract f 0 4 = [0; 1; 0; 0] -> 12 + 16 * num_tables f <= len f -> tables_in f T -> complete_font T o ps ->
  (embed = true -> u16 (T_os2 T) 8 <> 2 /\ Z.testbit (u16 (T_os2 T) 8) 9 = false) ->
  fs ename = Some (map_text le) -> sound_lines scan le -> fs (ref ename) = Some (map_text lr) -> sound_lines scan lr ->
  exists d z, make_font rnd scan ref fs name ename embed = Ret (Some (d, z)) /\ tt_definition rnd T o ps le embed f base ebase d z.

Lemma flags_ok (fixed : bool) angle : flags_are (let fl := 32 in let fl := if fixed then Z.lor fl 1 else fl in if negb (angle =? 0) then Z.lor fl 64 else fl) (fixed = true) (angle <> 0).
Proof.
  intros i Hi. cbv zeta. assert (B : forall k, 0 <= k -> Z.testbit (2 ^ k) i = (i =? k)) by (intros k Hk; rewrite Z.pow2_bits_eqb by lia; apply Z.eqb_sym).
  change 32 with (2 ^ 5). change 64 with (2 ^ 6). destruct (Z.eqb_spec angle 0) as [A|A]; cbn [negb].
  - destruct fixed; [change 1 with (2 ^ 0); rewrite Z.lor_spec|]; rewrite !B by lia; rewrite ?orb_true_iff, !Z.eqb_eq; intuition (try discriminate; try lia).
  - destruct fixed; rewrite !Z.lor_spec; [change (Z.testbit 1 i) with (Z.testbit (2 ^ 0) i)|]; rewrite !B by lia; rewrite !orb_true_iff, !Z.eqb_eq; intuition (try discriminate; try lia).
Qed.
Lemma code_widths_ok (g : entry -> outcome Z) (v : Z -> Z) (e : Z -> entry) n : forall a, (forall j, a <= j < a + Z.of_nat n -> g (e j) = Ret (v j)) -> code_widths g (map e (range a n)) = Ret (map v (range a n)).
Proof.
  induction n as [|n IH]; intros a H; [reflexivity|]. rewrite range_cons. cbn [map code_widths]. rewrite H by lia. cbn [obind]. rewrite IH; [reflexivity|]. intros j Hj. apply H. lia.
Qed.
Lemma ext_tt dir base ext name : file_name dir base ext name -> length ext = 3%nat -> lower (skipn (length name - 3) name) = ascii_lower ext /\ (length name <? 3)%nat = false.
Proof.
  intros (-> & _) L. assert (E : dir ++ base ++ 46 :: ext = (dir ++ base ++ [46]) ++ ext) by (rewrite <- !app_assoc; reflexivity). rewrite E. split.
  - set (p := dir ++ base ++ [46]). replace (length (p ++ ext) - 3)%nat with (length p) by (rewrite app_length; lia). rewrite skipn_app, skipn_all, Nat.sub_diag. reflexivity.
  - apply Nat.ltb_ge. rewrite (app_length _ ext). lia.
Qed.
Lemma lower_len s : length (ascii_lower s) = length s. Proof. apply map_length. Qed.

Lemma lookup4_pos s o c : 0 <= lookup4 s o c.
Proof.
  unfold lookup4. cbv zeta. repeat match goal with |- context [match ?x with _ => _ end] => destruct x end; try (apply Z.mod_pos_bound; reflexivity); lia.
Qed.
(** Proved for fonts with at most 32768 glyphs and encodings with characters below U+FFFF. *)
Theorem C75_truetype_partial : forall rnd scan ref fs dir base ext name edir ebase eext ename embed f T o ps le lr,
  file_name dir base ext name -> In (ascii_lower ext) [bs "ttf"; bs "otf"] -> file_name edir ebase eext ename ->
  fs name = Some f -> Forall is_byte f -> extract f 0 4 = [0; 1; 0; 0] -> 12 + 16 * num_tables f <= len f -> tables_in f T -> complete_font T o ps ->
  (embed = true -> u16 (T_os2 T) 8 <> 2 /\ Z.testbit (u16 (T_os2 T) 8) 9 = false) ->
  fs ename = Some (map_text le) -> sound_lines scan le -> fs (ref ename) = Some (map_text lr) -> sound_lines scan lr ->
  glyphs T <= 32768 -> (forall j, 0 <= j < 256 -> name_at le j <> bs ".notdef" -> 0 <= snd (encoded le j) < 65535) ->
  exists d z, make_font rnd scan ref fs name ename embed = Ret (Some (d, z)) /\ tt_definition rnd T o ps le embed f base ebase d z.
Proof.
  intros rnd scan ref fs dir base ext name edir ebase eext ename embed f T o ps le lr FN EX EN F1 Hf Hv Hd HT CF EM F2 SL F3 SR GL UV.
  destruct (C74_values_partial f T o ps Hf Hv Hd HT CF GL) as (r & P & D). destruct D.
  assert (LE : length ext = 3%nat) by (rewrite <- lower_len; destruct EX as [<-|[<-|[]]]; reflexivity). destruct (ext_tt _ _ _ _ FN LE) as (E1 & E2).
  unfold make_font. rewrite F1, E2, E1. cbv zeta. assert (TT : beqb (ascii_lower ext) (bs "ttf") || beqb (ascii_lower ext) (bs "otf") = true) by (destruct EX as [<-|[<-|[]]]; reflexivity). rewrite TT. cbn [orb negb].
  rewrite F2, load_map_ok by exact SL. cbn [obind]. unfold true_type. rewrite P. cbn [obind].
  assert (EB : embed && negb (tt_embed r) = false).
  { destruct embed; [|reflexivity]. specialize (EM eq_refl). apply de_embed in EM. now rewrite EM. }
  rewrite EB. clear EB. destruct de_widths as (W1 & W2). pose proof (cf_metrics _ _ _ CF) as MC. pose proof (W2 0 ltac:(lia)) as W0. change (Z.to_nat 0) with 0%nat in W0.
  destruct (tt_widths r) as [|w0 ws] eqn:EW; [discriminate|]. injection W0 as W0. rewrite <- EW in *.
  set (wid := fun j => rnd (u16 (T_head T) 18) (advance_of T (if beqb (name_at le j) (bs ".notdef") then 0 else char_glyph (T_cmap T) o (snd (encoded le j))))).
  rewrite (code_widths_ok _ wid).
  2:{ intros j Hj. change (0 + Z.of_nat 256) with 256 in Hj. unfold code_width, wid. unfold name_at. change notdef with (bs ".notdef"). rewrite de_em. destruct (beqb (fst (encoded le j)) (bs ".notdef")) eqn:E; [now rewrite W0|].
      assert (UVj : 0 <= snd (encoded le j) < 65535) by (apply UV; [exact Hj|]; intros X; unfold name_at in X; rewrite X, beqb_refl in E; discriminate).
      rewrite Z.mod_small by lia. rewrite de_chars by exact UVj. unfold char_glyph. replace ((0 <=? snd (encoded le j)) && (snd (encoded le j) <=? 65535)) with true by lia.
      pose proof (cf_glyphs _ _ _ CF _ UVj) as GG. destruct (Z.eqb_spec (lookup4 (T_cmap T) o (snd (encoded le j))) 0) as [->|NZ]; [now rewrite W0|].
      assert (POS : 0 <= lookup4 (T_cmap T) o (snd (encoded le j))).
      { apply lookup4_pos. }
      rewrite W2 by lia. reflexivity. }
  cbn [obind]. rewrite de_box. rewrite F3, load_map_ok by exact SR. cbn [obind]. eexists. eexists. split; [reflexivity|].
  constructor; cbn [d_type d_name d_enc d_desc descriptor n_name n_desc n_fixed n_bold n_up n_ut n_widths n_size1 n_size2 n_orig n_data k_asc k_desc k_cap k_flags k_box k_angle k_stem k_missing d_up d_ut d_cw d_size1 d_size2 d_orig d_file]; rewrite ?de_em, ?de_angle; try (rewrite ?W0; reflexivity).
  - split; [reflexivity|]. split; [exact de_name|]. exact (base_ok _ _ _ _ EN).
  - destruct de_heights as (-> & ->). split; reflexivity.
  - destruct de_heights as (-> & _). cbv zeta. now rewrite de_cap.
  - pose proof (flags_ok (tt_fixed r) (i16 (T_post T) 4)) as X. cbv zeta in X. intros i Hi. rewrite (X i Hi). now rewrite de_fixed.
  - now rewrite de_bold.
  - destruct de_underline as (-> & ->). split; reflexivity.
  - split; [rewrite map_length, range_len; reflexivity|]. intros j Hj. rewrite nth_error_map, range_nth by lia. cbn [option_map]. unfold wid. replace (0 + Z.of_nat (Z.to_nat j)) with j by lia. reflexivity.
  - split; [reflexivity|]. split; [reflexivity|]. destruct embed; [|repeat split]. split; [reflexivity|]. split; [reflexivity|]. now rewrite (base_ok _ _ _ _ FN).
Qed.
Print Assumptions C75_truetype_partial.

(** a character above U+FFFF gets the width of another one *)
Definition fs_of (l : list (bytes * bytes)) (n : bytes) : option bytes := match find (fun e => beqb (fst e) n) l with Some (_, c) => Some c | None => None end.
Definition scan_of (l : list line) (t : bytes) : option (Z * Z * bytes) := match find (fun e => beqb (fst e) t) l with Some (_, c) => Some c | None => None end.
Definition sx_lines : list line := [(bs "!41 U+0041 A", (65, 65, bs "A")); (bs "!42 U+10042 x", (66, 65602, bs "x")); (bs "!43 U+0042 B", (67, 66, bs "B"))].
Definition sx_scan : bytes -> option (Z * Z * bytes) := scan_of sx_lines.
Definition sx_ref (_ : bytes) : bytes := bs "enc/cp1252.map".
Definition sx_fs : bytes -> option bytes := fs_of [(bs "f/Foo.TTF", fx_ex); (bs "enc/x.map", map_text sx_lines); (bs "enc/cp1252.map", [])].
Definition ex_rnd (em v : Z) : Z := (2000 * v + em) / (2 * em).
Ltac sound_by_computing := unfold sound_lines; repeat (apply Forall_cons; [split; [|split; [vm_compute; reflexivity|cbn; lia]]; intros c Hc; cbn in Hc; intuition (subst; lia)|]); apply Forall_nil.
Lemma sx_sound : sound_lines sx_scan sx_lines. Proof. sound_by_computing. Qed.
Lemma nil_sound scan : sound_lines scan []. Proof. constructor. Qed.
Lemma file_name_by dir base ext name : name = dir ++ base ++ 46 :: ext -> existsb (Z.eqb 47) (base ++ ext) || existsb (Z.eqb 46) ext = false -> (dir = [] \/ exists d, dir = d ++ [47]) -> file_name dir base ext name.
Proof.
  intros -> H D. apply orb_false_elim in H as (H1 & H2). assert (N : forall c l, existsb (Z.eqb c) l = false -> ~ In c l).
  { intros c l E X. assert (existsb (Z.eqb c) l = true) by (apply existsb_exists; exists c; split; [exact X|lia]). congruence. }
  apply N in H1, H2. split; [reflexivity|]. split; [exact D|]. repeat split; try exact H2; intros X; apply H1; apply in_or_app; auto.
Qed.
Lemma sx_name : file_name (bs "f/") (bs "Foo") (bs "TTF") (bs "f/Foo.TTF").
Proof. apply file_name_by; [reflexivity|reflexivity|right; exists (bs "f"); reflexivity]. Qed.
Lemma sx_ename : file_name (bs "enc/") (bs "x") (bs "map") (bs "enc/x.map").
Proof. apply file_name_by; [reflexivity|reflexivity|right; exists (bs "enc"); reflexivity]. Qed.
Lemma sx_embed : u16 (T_os2 (fx_T fx_ex fx_hhea fx_maxp fx_cmap)) 8 <> 2 /\ Z.testbit (u16 (T_os2 (fx_T fx_ex fx_hhea fx_maxp fx_cmap)) 8) 9 = false.
Proof. vm_compute. split; [discriminate|reflexivity]. Qed.
Theorem C75_refuted : ~ C75_statement.
Proof.
  intros H. destruct C74_case_ok as (X1 & X2 & X3 & X4 & X5 & _).
  destruct (H ex_rnd sx_scan sx_ref sx_fs (bs "f/") (bs "Foo") (bs "TTF") (bs "f/Foo.TTF") (bs "enc/") (bs "x") (bs "map") (bs "enc/x.map") true fx_ex _ 12 (bs "Foo") sx_lines []
    sx_name ltac:(left; reflexivity) sx_ename eq_refl X1 X2 X3 X4 X5 (fun _ => sx_embed) eq_refl sx_sound eq_refl (nil_sound _)) as (d & z & E & D).
  destruct (td_widths _ _ _ _ _ _ _ _ _ _ _ D) as (_ & W). specialize (W 66 ltac:(lia)).
  assert (E2 : match make_font ex_rnd sx_scan sx_ref sx_fs (bs "f/Foo.TTF") (bs "enc/x.map") true with Ret (Some (d, _)) => nth_error (d_cw d) 66 | _ => None end = Some 600) by (vm_compute; reflexivity).
  rewrite E in E2. change (Z.to_nat 66) with 66%nat in W. rewrite W in E2. vm_compute in E2. discriminate.
Qed.
Print Assumptions C75_refuted.
Theorem C75_short_name_refuted : exists rnd scan ref fs name enc, fs name <> None /\ make_font rnd scan ref fs name enc false = Panic.
Proof. exists ex_rnd, sx_scan, sx_ref, (fun _ => Some []), (bs "x"), (bs "y"). split; [discriminate|reflexivity]. Qed.
(** the hypotheses hold: the small font, for the codes of A and B *)
Definition sy_lines : list line := [(bs "!41 U+0041 A", (65, 65, bs "A")); (bs "!42 U+0042 B", (66, 66, bs "B")); (bs "!43 U+0043 C", (67, 67, bs "C"))].
Example C75_case : exists d,
  make_font ex_rnd (scan_of sy_lines) sx_ref (fs_of [(bs "f/Foo.TTF", fx_ex); (bs "enc/x.map", map_text sy_lines); (bs "enc/cp1252.map", [])]) (bs "f/Foo.TTF") (bs "enc/x.map") true = Ret (Some (d, Some fx_ex)) /\
  map (fun j => nth j (d_cw d) 0) [64; 65; 66; 67]%nat = [500; 600; 600; 500] /\ d_diff d = bs "65 /A /B /C" /\ d_file d = bs "Foo.z" /\
  sound_lines (scan_of sy_lines) sy_lines /\ (forall j, 0 <= j < 256 -> name_at sy_lines j <> bs ".notdef" -> 0 <= snd (encoded sy_lines j) < 65535).
Proof.
  eexists. split; [vm_compute; reflexivity|]. split; [vm_compute; reflexivity|]. split; [vm_compute; reflexivity|]. split; [vm_compute; reflexivity|]. split; [sound_by_computing|].
  intros j Hj. unfold name_at, encoded. cbn [fold_left sy_lines snd]. destruct (67 =? j); [intros _; cbn [snd]; lia|]. destruct (66 =? j); [intros _; cbn [snd]; lia|]. destruct (65 =? j); [intros _; cbn [snd]; lia|]. intros N. now destruct N.
Qed.

(** ** C76: the differences, applied to the encoding the reader knows, give the encoding of the font *)
Theorem C76_differences : forall rnd scan ref fs name ename embed d z le lr,
  make_font rnd scan ref fs name ename embed = Ret (Some (d, z)) ->
  fs ename = Some (map_text le) -> sound_lines scan le -> fs (ref ename) = Some (map_text lr) -> sound_lines scan lr ->
  (forall j, 32 <= j < 256 -> regular_name (name_at le j)) ->
  forall j, applied (words (d_diff d)) 0 (name_at lr) j = if (32 <=? j) && (j <? 256) then name_at le j else name_at lr j.
Proof.
  intros rnd scan ref fs name ename embed d z le lr H F1 S1 F2 S2 RN j.
  assert (DD : d_diff d = differences_text (map (encoded le) (range 0 256)) (map (encoded lr) (range 0 256))).
  { unfold make_font in H. destruct (fs name) as [f|]; [|discriminate]. destruct (_ <? 3)%nat; [discriminate|]. cbv zeta in H. destruct (negb _); [discriminate|].
    rewrite F1, load_map_ok in H by exact S1. cbn [obind] in H. apply obind_ret in H as (i & _ & H). destruct i as [i|]; [|discriminate]. rewrite F2, load_map_ok in H by exact S2. cbn [obind] in H.
    assert (X : exists d', d = d' /\ d_diff d' = differences_text (map (encoded le) (range 0 256)) (map (encoded lr) (range 0 256))) by (eexists; split; [injection H as H _; symmetry; exact H|reflexivity]).
    destruct X as (d' & -> & X). exact X. }
  rewrite DD. clear H DD. unfold differences_text. rewrite diff_toks.
  assert (SK : forall l, skipn 32 (map (encoded l) (range 0 256)) = map (encoded l) (range 32 224)) by (intros l; rewrite skipn_map; f_equal).
  rewrite !SK. assert (TK : Forall token_ok (toks 224 32 0 (map (encoded le) (range 32 224)) (map (encoded lr) (range 32 224)))).
  { apply toks_ok; [lia|]. apply Forall_forall. intros e He. apply in_map_iff in He as (i & <- & Hi). apply in_range in Hi. apply RN. lia. }
  rewrite words_trimmed by exact TK. 
  assert (G : forall code, applied (toks 224 32 0 (map (encoded le) (range 32 224)) (map (encoded lr) (range 32 224))) code (name_at lr) j =
    applied (toks 224 32 0 (map (encoded le) (range 32 224)) (map (encoded lr) (range 32 224))) 1 (name_at lr) j).
  { assert (FT : forall k i enc ref code nm, 1 < i -> applied (toks k i 0 enc ref) code nm = applied (toks k i 0 enc ref) 1 nm).
    { induction k as [|k IH]; intros i enc rf code nm Hi; [reflexivity|]. destruct enc as [|e enc]; [reflexivity|]. destruct rf as [|r rf]; [reflexivity|]. cbn [toks].
      match goal with |- context [if beqb ?a ?b then _ else _] => destruct (beqb a b) end; [apply IH; lia|]. replace (i =? 0 + 1) with false by lia.
      destruct (dec_nat_cons i) as (c & t & D & G). assert (DD : dec i = c :: t) by (unfold dec; replace (i <? 0) with false by lia; exact D). unfold is_digit in G.
      cbn [app]. remember (toks k (i + 1) i enc rf) as tl eqn:Et. clear Et. rewrite DD. cbn [applied]. replace (c =? 47) with false by lia. rewrite <- DD.
      pose proof (read_dec_dec i [] ltac:(lia)) as RD. rewrite app_nil_r in RD. rewrite RD by exact I. reflexivity. }
    intros code. now rewrite FT. }
  rewrite (G 0). change 1 with (0 + 1). rewrite applied_toks; [|lia|lia|now rewrite map_length, range_len|now rewrite map_length, range_len|].
  - change (32 + Z.of_nat 224) with 256. destruct ((32 <=? j) && (j <? 256)) eqn:E; [|reflexivity]. rewrite nth_range_map by lia. unfold name_at. do 2 f_equal. lia.
  - intros i Hi. rewrite nth_error_map, range_nth by lia. cbn [option_map]. rewrite nth_range_map by lia. replace (32 + Z.of_nat (Z.to_nat i)) with (32 + i) by lia. unfold name_at. now destruct (encoded lr (32 + i)).
Qed.
Print Assumptions C76_differences.
Example C76_case : forall j, 32 <= j < 256 -> regular_name (name_at sy_lines j).
Proof.
  intros j Hj. unfold name_at, encoded. cbn [fold_left sy_lines snd]. assert (B : forall s, forallb (fun c => (33 <=? c) && (c <=? 126) && negb (existsb (Z.eqb c) (bs "()<>[]{}/%#"))) s = true -> s <> [] -> regular_name s).
  { intros s H N. split; [exact N|]. apply Forall_forall. intros c Hc. rewrite forallb_forall in H. specialize (H c Hc). apply andb_prop in H as (H1 & H2). split; [lia|]. intros X. apply negb_true_iff in H2.
    assert (existsb (Z.eqb c) (bs "()<>[]{}/%#") = true) by (apply existsb_exists; exists c; split; [exact X|lia]). congruence. }
  destruct (67 =? j); [apply B; [reflexivity|discriminate]|]. destruct (66 =? j); [apply B; [reflexivity|discriminate]|]. destruct (65 =? j); [apply B; [reflexivity|discriminate]|]. apply B; [reflexivity|discriminate].
Qed.

(** ** C77: the definition of a Type1 font *)
Record t1_definition (l : list afm_item) (le : list line) (embed : bool) (d1 d2 base enc_base : bytes) (d : fdef) (z : option bytes) : Prop := {
  t1_type : d_type d = bs "Type1" /\ d_name d = word_in l "FontName" /\ d_enc d = enc_base;
  t1_heights : k_asc (d_desc d) = number_in l "Ascender" /\ k_desc (d_desc d) = number_in l "Descender";
  t1_cap : k_cap (d_desc d) = (if number_in l "CapHeight" =? 0 then number_in l "Ascender" else number_in l "CapHeight");
  t1_box : k_box (d_desc d) = box_in l;
  t1_angle : k_angle (d_desc d) = number_in l "ItalicAngle";
  t1_flags : flags_are (k_flags (d_desc d)) (word_in l "IsFixedPitch" = bs "true") (number_in l "ItalicAngle" <> 0);
  t1_stem : (number_in l "StdVW" <> 0 -> k_stem (d_desc d) = number_in l "StdVW") /\
            (number_in l "StdVW" = 0 -> (bold_word (word_in l "Weight") -> k_stem (d_desc d) = 120) /\ (~ bold_word (word_in l "Weight") -> k_stem (d_desc d) = 70));
  t1_underline : d_up d = number_in l "UnderlinePosition" /\ d_ut d = number_in l "UnderlineThickness";
  (** the width of a code is that of its name, or of .notdef, or 0 *)
  t1_missing : k_missing (d_desc d) = match width_in l (bs ".notdef") with Some w => w | None => 0 end;
  t1_widths : len (d_cw d) = 256 /\ forall j, 0 <= j < 256 -> nth_error (d_cw d) (Z.to_nat j) = Some (match width_in l (name_at le j) with Some w => w | None => k_missing (d_desc d) end);
  t1_embedded : d_orig d = 0 /\ if embed then z = Some (d1 ++ d2) /\ d_size1 d = len d1 /\ d_size2 d = len d2 /\ d_file d = base ++ bs ".z" else z = None /\ d_size1 d = 0 /\ d_size2 d = 0 /\ d_file d = [] }.
Definition C77_statement : Prop := forall rnd scan ref fs dir base ext name edir ebase eext ename embed f t1 d1 t2 d2 rest l le lr,
  file_name dir base ext name -> ascii_lower ext = bs "pfb" -> file_name edir ebase eext ename ->
  fs name = Some f -> (embed = true -> f = pfb_segment t1 d1 ++ pfb_segment t2 d2 ++ rest /\ len d1 < 2 ^ 32 /\ len d2 < 2 ^ 32) ->
  fs (dir ++ base ++ bs ".afm") = Some (afm_text l) -> Forall item_ok l -> word_in l "FontName" <> [] ->
  fs ename = Some (map_text le) -> sound_lines scan le -> fs (ref ename) = Some (map_text lr) -> sound_lines scan lr ->
  exists d z, make_font rnd scan ref fs name ename embed = Ret (Some (d, z)) /\ (Forall whole l -> t1_definition l le embed d1 d2 base ebase d z).
(** Proved when all numbers in the metric file are whole. *)
Theorem C77_type1_partial : forall rnd scan ref fs dir base ext name edir ebase eext ename embed f t1 d1 t2 d2 rest l le lr,
  file_name dir base ext name -> ascii_lower ext = bs "pfb" -> file_name edir ebase eext ename ->
  fs name = Some f -> (embed = true -> f = pfb_segment t1 d1 ++ pfb_segment t2 d2 ++ rest /\ len d1 < 2 ^ 32 /\ len d2 < 2 ^ 32) ->
  fs (dir ++ base ++ bs ".afm") = Some (afm_text l) -> Forall item_ok l -> word_in l "FontName" <> [] ->
  fs ename = Some (map_text le) -> sound_lines scan le -> fs (ref ename) = Some (map_text lr) -> sound_lines scan lr ->
  Forall whole l ->
  exists d z, make_font rnd scan ref fs name ename embed = Ret (Some (d, z)) /\ t1_definition l le embed d1 d2 base ebase d z.
Proof.
  intros rnd scan ref fs dir base ext name edir ebase eext ename embed f t1 d1 t2 d2 rest l le lr FN EX EN F1 FB F4 IO NE F2 SL F3 SR WH.
  assert (LE : length ext = 3%nat) by (rewrite <- lower_len, EX; reflexivity). destruct (ext_tt _ _ _ _ FN LE) as (E1 & E2).
  unfold make_font. rewrite F1, E2, E1, EX. cbv zeta. change (beqb (bs "pfb") (bs "ttf") || beqb (bs "pfb") (bs "otf")) with false. change (negb (false || beqb (bs "pfb") (bs "pfb"))) with false. cbv iota.
  rewrite F2, load_map_ok by exact SL. cbn [obind].
  assert (AN : firstn (length name - 3) name ++ bs "afm" = dir ++ base ++ bs ".afm").
  { destruct FN as (-> & _). assert (E : dir ++ base ++ 46 :: ext = (dir ++ base ++ [46]) ++ ext) by (rewrite <- !app_assoc; reflexivity). rewrite E. set (p := dir ++ base ++ [46]). replace (length (p ++ ext) - 3)%nat with (length p) by (rewrite app_length; lia).
    rewrite firstn_app, firstn_all, Nat.sub_diag. cbn [firstn]. rewrite app_nil_r. unfold p. rewrite <- !app_assoc. reflexivity. }
  rewrite AN, F4.
  destruct (afm_lines_ok l IO WH afm0) as (a & AL & A).
  assert (NN : afm_text l <> []) by (destruct l as [|i l']; [now destruct NE|]; unfold afm_text; cbn [flat_map]; intros X; apply app_eq_nil in X as (X & _); apply app_eq_nil in X as (_ & X); discriminate).
  assert (NM : beqb (a_name a) [] = false).
  { apply beqb_neq. rewrite (af_name _ _ _ A). exact NE. }
  set (missing := match width_in l (bs ".notdef") with Some w => w | None => 0 end).
  assert (MS : match wd_of (a_widths a) notdef with Some w => w | None => k_missing (a_desc a) end = missing) by (rewrite (af_widths _ _ _ A), (af_missing _ _ _ A); reflexivity).
  set (i := {| n_data := if embed then d1 ++ d2 else []; n_orig := 0; n_name := a_name a; n_bold := beqb (a_weight a) (bs "bold") || beqb (a_weight a) (bs "black"); n_fixed := a_fixed a; n_up := a_up a; n_ut := a_ut a;
     n_widths := map (fun e => if beqb (fst e) notdef then missing else match wd_of (a_widths a) (fst e) with Some w => w | None => missing end) (map (encoded le) (range 0 256));
     n_size1 := if embed then len d1 else 0; n_size2 := if embed then len d2 else 0;
     n_desc := {| k_asc := k_asc (a_desc a); k_desc := k_desc (a_desc a); k_cap := k_cap (a_desc a); k_flags := k_flags (a_desc a); k_box := k_box (a_desc a); k_angle := k_angle (a_desc a); k_stem := k_stem (a_desc a); k_missing := missing |} |}).
  assert (T1 : type1 f (Some (afm_text l)) embed (map (encoded le) (range 0 256)) = Ret (Some i)).
  { unfold type1. destruct (afm_text l) as [|c0 tx] eqn:ET; [now destruct NN|]. rewrite <- ET. rewrite (afm_text_lines l IO), AL. cbn [obind]. rewrite NM, MS. unfold i. destruct embed; [|reflexivity].
    destruct (FB eq_refl) as (-> & L1 & L2). pose proof (segment_ok [] t1 d1 (pfb_segment t2 d2 ++ rest) L1) as S1. cbn [app length Z.of_nat] in S1. rewrite S1.
    pose proof (segment_ok (pfb_segment t1 d1) t2 d2 rest L2) as S2. replace (len (pfb_segment t1 d1)) with (0 + 6 + len d1) in S2 by (unfold pfb_segment; cbn [length]; rewrite app_length; cbn [length le32]; lia). rewrite S2. reflexivity. }
  rewrite T1. cbn [obind]. rewrite F3, load_map_ok by exact SR. cbn [obind]. eexists. eexists. split; [reflexivity|]. unfold i. destruct A.
  constructor; cbn [d_type d_name d_enc d_desc descriptor n_name n_desc n_fixed n_bold n_up n_ut n_widths n_size1 n_size2 n_orig n_data k_asc k_desc k_cap k_flags k_box k_angle k_stem k_missing d_up d_ut d_cw d_size1 d_size2 d_orig d_file].
  - split; [reflexivity|]. split; [exact af_name|exact (base_ok _ _ _ _ EN)].
  - split; [exact af_asc|exact af_dsc].
  - rewrite af_cap, af_asc. reflexivity.
  - exact af_box.
  - exact af_angle.
  - pose proof (flags_ok (a_fixed a) (k_angle (a_desc a))) as X. cbv zeta in X. intros b Hb. rewrite (X b Hb). rewrite af_angle. rewrite (af_fixed [] eq_refl). fold (word_in l "IsFixedPitch"). rewrite beqb_eq. reflexivity.
  - rewrite af_stem. cbn [afm0 a_desc k_stem]. change (fold_left (num_step "StdVW") l 0) with (number_in l "StdVW"). rewrite (af_weight [] eq_refl). change (fold_left (word_step "Weight") l []) with (word_in l "Weight"). change (lower (word_in l "Weight")) with (ascii_lower (word_in l "Weight")).
    destruct (Z.eqb_spec (number_in l "StdVW") 0) as [Z0|Z0]; (split; [intros Q|intros Q; split; intros BW]); try lia; unfold bold_word in BW; cbn [In] in BW.
    + assert (X : beqb (ascii_lower (word_in l "Weight")) (bs "bold") || beqb (ascii_lower (word_in l "Weight")) (bs "black") = true) by (destruct BW as [<-|[<-|[]]]; reflexivity). now rewrite X.
    + assert (X : beqb (ascii_lower (word_in l "Weight")) (bs "bold") || beqb (ascii_lower (word_in l "Weight")) (bs "black") = false).
      { apply orb_false_intro; apply beqb_neq; intros E; apply BW; rewrite E; auto. }
      now rewrite X.
  - split; [exact af_up|exact af_ut].
  - reflexivity.
  - split; [rewrite !map_length, range_len; reflexivity|]. intros j Hj. rewrite !nth_error_map, range_nth by lia. cbn [option_map]. replace (0 + Z.of_nat (Z.to_nat j)) with j by lia. fold (name_at le j). f_equal.
    rewrite af_widths. cbn [afm0 a_widths wd_of]. change (fold_left (width_step (name_at le j)) l None) with (width_in l (name_at le j)).
    destruct (beqb (name_at le j) notdef) eqn:E; [|reflexivity]. apply beqb_eq in E. rewrite E. change notdef with (bs ".notdef"). unfold missing. destruct (width_in l (bs ".notdef")); reflexivity.
  - split; [reflexivity|]. destruct embed; [|repeat split]. split; [reflexivity|]. split; [reflexivity|]. split; [reflexivity|]. now rewrite (base_ok _ _ _ _ FN).
Qed.
Print Assumptions C77_type1_partial.
(** the angle -12.0 *)
Definition sz_name : bytes := bs "f/Foo.pfb".
Definition sz_afm (l : list afm_item) : list (bytes * bytes) := [(bs "f/Foo.pfb", pfb_segment 1 [1; 2; 3] ++ pfb_segment 2 [4; 5] ++ pfb_segment 3 []); (bs "f/Foo.afm", afm_text l); (bs "enc/x.map", map_text sy_lines); (bs "enc/cp1252.map", [])].
Definition sz_italic : list afm_item := [Word (bs "FontName") (bs "Foo"); Decimal (bs "ItalicAngle") (-12) (bs "0")].
Lemma sz_file : file_name (bs "f/") (bs "Foo") (bs "pfb") sz_name.
Proof. apply file_name_by; [reflexivity|reflexivity|right; exists (bs "f"); reflexivity]. Qed.
Lemma sy_sound : sound_lines (scan_of sy_lines) sy_lines. Proof. sound_by_computing. Qed.
Ltac words_by_computing := repeat (apply Forall_cons; [split; [discriminate|repeat (apply Forall_cons; [lia|]); apply Forall_nil]|]); apply Forall_nil.
Theorem C77_refuted : ~ C77_statement.
Proof.
  intros H. destruct (H ex_rnd (scan_of sy_lines) sx_ref (fs_of (sz_afm sz_italic)) (bs "f/") (bs "Foo") (bs "pfb") sz_name (bs "enc/") (bs "x") (bs "map") (bs "enc/x.map") false (pfb_segment 1 [1; 2; 3] ++ pfb_segment 2 [4; 5] ++ pfb_segment 3 []) 1 [] 2 [] [] sz_italic sy_lines [])
    as (d & z & E & _).
  - exact sz_file.
  - reflexivity.
  - exact sx_ename.
  - reflexivity.
  - discriminate.
  - reflexivity.
  - unfold sz_italic. apply Forall_cons; [|apply Forall_cons; [|apply Forall_nil]].
    + split; [cbn; words_by_computing|cbn; auto].
    + split; [cbn; words_by_computing|]. cbn [item_words]. split; [left; reflexivity|]. split; [unfold small; lia|]. split; [discriminate|]. repeat constructor.
  - discriminate.
  - reflexivity.
  - exact sy_sound.
  - reflexivity.
  - constructor.
  - vm_compute in E. discriminate.
Qed.
Print Assumptions C77_refuted.
(** the hypotheses hold: a small Type1 font *)
Definition sz_items : list afm_item := [Other [bs "StartFontMetrics"; bs "4.1"]; Word (bs "FontName") (bs "Foo"); Word (bs "Weight") (bs "Bold"); Number (bs "Ascender") 750; Number (bs "Descender") (-250);
  Box (-10) (-20) 990 800; Other [bs "StartCharMetrics"; bs "3"]; Metric 65 722 (bs "A") [bs "B"; bs "15"; bs "0"; bs "706"; bs "674"; bs ";"]; Metric (-1) 300 (bs ".notdef") []; Other [bs "EndCharMetrics"]].
Lemma notin_by (k : bytes) l : existsb (beqb k) l = false -> ~ In k l.
Proof. intros H X. assert (existsb (beqb k) l = true) by (apply existsb_exists; exists k; split; [exact X|apply beqb_refl]). congruence. Qed.
Example C77_case : Forall item_ok sz_items /\ Forall whole sz_items /\ word_in sz_items "FontName" <> [] /\ exists d,
  make_font ex_rnd (scan_of sy_lines) sx_ref (fs_of (sz_afm sz_items)) sz_name (bs "enc/x.map") true = Ret (Some (d, Some [1; 2; 3; 4; 5])) /\
  map (fun j => nth j (d_cw d) 0) [64; 65; 66]%nat = [300; 722; 300] /\ k_stem (d_desc d) = 120 /\ k_cap (d_desc d) = 750 /\ d_size1 d = 3 /\ d_size2 d = 2.
Proof.
  split; [|split; [repeat constructor|split; [discriminate|]]].
  - unfold sz_items. repeat (apply Forall_cons; [split; [cbn; words_by_computing|cbn [item_words]; first [apply notin_by; reflexivity|unfold small; lia|split; [cbn; tauto|unfold small; lia]|cbn; tauto]]|]); apply Forall_nil.
  - eexists. split; [vm_compute; reflexivity|]. vm_compute. auto.
Qed.
(** a line with a code and nothing else stops the program *)
Theorem C77_crash_refuted : exists rnd scan ref fs name enc, fs (bs "f/Foo.afm") = Some (bs "FontName Foo" ++ [10] ++ bs "C 32" ++ [10]) /\ make_font rnd scan ref fs name enc false = Panic.
Proof.
  exists ex_rnd, (scan_of sy_lines), sx_ref, (fs_of [(bs "f/Foo.pfb", []); (bs "f/Foo.afm", bs "FontName Foo" ++ [10] ++ bs "C 32" ++ [10]); (bs "enc/x.map", map_text sy_lines); (bs "enc/cp1252.map", [])]), sz_name, (bs "enc/x.map").
  split; [reflexivity|vm_compute; reflexivity].
Qed.
(** a font file cut off inside its second segment is accepted, and zeros are put in for what is missing *)
Theorem C77_truncated_refuted : exists rnd scan ref fs name enc d, fs name = Some (pfb_segment 1 [1; 2; 3] ++ [128; 2; 9; 0; 0; 0; 4; 5]) /\
  make_font rnd scan ref fs name enc true = Ret (Some (d, Some [1; 2; 3; 4; 5; 0; 0; 0; 0; 0; 0; 0])) /\ d_size2 d = 9.
Proof.
  exists ex_rnd, (scan_of sy_lines), sx_ref, (fs_of [(bs "f/Foo.pfb", pfb_segment 1 [1; 2; 3] ++ [128; 2; 9; 0; 0; 0; 4; 5]); (bs "f/Foo.afm", bs "FontName Foo" ++ [10]); (bs "enc/x.map", map_text sy_lines); (bs "enc/cp1252.map", [])]), sz_name, (bs "enc/x.map").
  eexists. split; [reflexivity|]. split; [vm_compute; reflexivity|reflexivity].
Qed.
