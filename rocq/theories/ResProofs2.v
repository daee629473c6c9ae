(** Proofs for C62, continued: monotonicity of the specification, fonts, templates, loops. *)
From Verif Require Import Base TextModel Crypto DocModel DocSpec DocSort DocProofs DocWalk DocParts DocRes DocRes2 DocEnd DocXref DocLayout ResSpec ResProofs.
From Coq Require Import String Permutation.
Open Scope Z_scope.
Notation length := List.length.
Local Notation "a +++ b" := (List.app a b) (at level 60, right associativity, only parsing).

(** ** More objects, other cipher *)
Section Mono.
  Context {E : env} (d : doc (e_num E)) (O O' : Z -> bytes -> Prop) (S S' : Z -> bytes -> bytes).
  Hypothesis HO : forall k b, O k b -> O' k b.
  Hypothesis HS : forall k b, S k b = S' k b.
  Lemma stream_obj_mono k dict data : stream_obj O S k dict data -> stream_obj O' S' k dict data.
  Proof. unfold stream_obj. rewrite HS. apply HO. Qed.
  Lemma image_at_mono k im : image_at d O S k im -> image_at d O' S' k im.
  Proof.
    intros (cs & sm & H1 & H2 & H3). exists cs, sm. split; [|split].
    - revert H1. unfold color_space. destruct (beqb _ _); [|auto]. intros (kp & -> & H). exists kp. split; [reflexivity|].
      revert H. unfold palette_at. destruct (d_compress d); apply stream_obj_mono.
    - revert H2. unfold soft_mask. destruct (im_smask im); [|auto]. intros (ks & -> & H). exists ks. split; [reflexivity|]. now apply stream_obj_mono.
    - now apply stream_obj_mono.
  Qed.
  Lemma file_at_mono k file info : file_at O S k file info -> file_at O' S' k file info.
  Proof. intros (c & x & H1 & H2 & H3). exists c, x. split; [exact H1|]. split; [exact H2|]. now apply stream_obj_mono. Qed.
  Lemma simple_at_mono k t1 fo : simple_at d O S k t1 fo -> simple_at d O' S' k t1 fo.
  Proof.
    intros (kw & kd & enc & (ws & W1 & W2 & W3) & (kf & info & D1 & D2 & D3) & He & H). exists kw, kd, enc. split; [|split; [|split]].
    - exists ws. auto.
    - exists kf, info. split; [exact D1|]. split; [now apply file_at_mono|auto].
    - revert He. unfold encoding_at. destruct (0 <? fo_diffn fo); [|auto]. intros (ke & diff & X & Y & Z1). exists ke, diff. auto.
    - auto.
  Qed.
  Lemma font_at_mono k fo : font_at d O S k fo -> font_at d O' S' k fo.
  Proof.
    unfold font_at. destruct (fo_type fo).
    - apply HO.
    - apply simple_at_mono.
    - apply simple_at_mono.
    - intros (kc & ku & ki & kd & km & kf & gm & H1 & H2 & H3 & H4 & H5 & H6 & H7 & H8).
      exists kc, ku, ki, kd, km, kf, gm. split; [auto|]. split; [auto|]. split; [now apply stream_obj_mono|]. split; [auto|]. split; [auto|]. split; [auto|].
      split; now apply stream_obj_mono.
    - auto.
  Qed.
  Lemma layer_at_mono k l : layer_at O S k l -> layer_at O' S' k l.
  Proof. intros (n & H1 & H2). exists n. split; [exact H1|]. rewrite <- HS. auto. Qed.
  Lemma blend_at_mono k b : blend_at O k b -> blend_at O' k b.
  Proof. apply HO. Qed.
  Lemma gradient_at_mono k g : gradient_at (E := E) O k g -> gradient_at (E := E) O' k g.
  Proof. intros (kf & H1 & H2). exists kf. auto. Qed.
  Lemma spot_at_mono k n v : spot_at (E := E) O k n v -> spot_at (E := E) O' k n v.
  Proof. apply HO. Qed.
  Lemma naming_mono {A} (T : A -> Prop) n (P Q : Z -> A -> Prop) l : (forall k a, P k a -> Q k a) -> naming T n P l -> naming T n Q l.
  Proof. intros H [H1 H2]. split; [exact H1|]. intros m k Hm. destruct (H2 m k Hm) as (a & X & Y & Z1). exists a. auto. Qed.
  Lemma template_at_mono t : forall k, template_at d O S k t -> template_at d O' S' k t.
  Proof.
    revert t. fix IH 3. intros t k H. destruct H as [k ptr id cx cy moved wd ht content images subs fonts imgs tpls F I1 I2 T1 T2 m data H].
    apply (template_obj d O' S' k ptr id cx cy moved wd ht content images subs fonts imgs tpls).
    - revert F. apply naming_mono. intros k0 a. apply font_at_mono.
    - exact I1.
    - intros n k' Hn. destruct (I2 n k' Hn) as (i & X & Y & Z1). exists i. split; [exact X|]. split; [exact Y|]. now apply image_at_mono.
    - exact T1.
    - intros n k' Hn. destruct (T2 n k' Hn) as (s & X & Y & Z1). exists s. split; [exact X|]. split; [exact Y|]. apply IH. exact Z1.
    - apply stream_obj_mono. exact H.
  Qed.
End Mono.

Section G.
  Context {E : env}.
  Lemma find_app {A} (f : A -> bool) a b : find f (a +++ b) = match find f a with Some x => Some x | None => find f b end.
  Proof. induction a as [|x a IH]; [reflexivity|]. cbn. destruct (f x); [reflexivity|exact IH]. Qed.
  Lemma gid_map_spec gids : forall m gm, gid_map gids m = Some gm -> zlen gm = zlen m /\
    forall c, 0 <= c -> 2 * c + 1 < zlen m ->
      match find (fun p => fst p =? c) (rev gids) with
      | Some p => nth_error gm (Z.to_nat (2 * c)) = Some ((snd p / 256) mod 256) /\ nth_error gm (Z.to_nat (2 * c + 1)) = Some (snd p mod 256)
      | None => nth_error gm (Z.to_nat (2 * c)) = nth_error m (Z.to_nat (2 * c)) /\ nth_error gm (Z.to_nat (2 * c + 1)) = nth_error m (Z.to_nat (2 * c + 1))
      end.
  Proof.
    induction gids as [|[cc g] t IH]; intros m gm H; cbn [gid_map] in H.
    - injection H as <-. split; [reflexivity|]. intros c _ _. cbn. now split.
    - destruct ((0 <=? cc) && (cc * 2 + 1 <? zlen m)) eqn:Ec; [|discriminate].
      apply IH in H as [Hl H]. assert (Lm : zlen (set_nth (Z.to_nat (cc * 2 + 1)) (g mod 256) (set_nth (Z.to_nat (cc * 2)) ((g / 256) mod 256) m)) = zlen m) by (unfold zlen; now rewrite !set_nth_length).
      rewrite Lm in *. split; [exact Hl|]. intros c H0 H1. specialize (H c H0 H1). cbn [rev]. rewrite find_app.
      destruct (find (fun p => fst p =? c) (rev t)) as [p|]; [exact H|]. cbn [find fst]. destruct H as [-> ->].
      destruct (cc =? c) eqn:Eq.
      + apply Z.eqb_eq in Eq. subst cc. cbn [snd]. split.
        * rewrite nth_set_nth_other by lia. replace (c * 2) with (2 * c) by lia. apply nth_set_nth_same. unfold zlen in *. lia.
        * replace (c * 2 + 1) with (2 * c + 1) by lia. apply nth_set_nth_same. rewrite set_nth_length. unfold zlen in *. lia.
      + split; rewrite !nth_set_nth_other by lia; reflexivity.
  Qed.
  Lemma gid_map_glyphs gids gm : gid_map gids gid_zero = Some gm -> glyph_map gids gm.
  Proof.
    intros H. apply gid_map_spec in H as [Hl H]. assert (Lz : zlen gid_zero = 131072) by (unfold gid_zero, zlen; rewrite repeat_length; lia).
    rewrite Lz in *. split; [exact Hl|]. intros c Hc. specialize (H c ltac:(lia) ltac:(lia)). cbv zeta.
    assert (R : forall i, (i < 131072) -> 0 <= i -> nth_error gid_zero (Z.to_nat i) = Some 0).
    { intros i Hi H0. unfold gid_zero. apply nth_error_repeat. lia. }
    destruct (find (fun p => fst p =? c) (rev gids)) as [p|]; [exact H|]. destruct H as [-> ->]. split; apply R; lia.
  Qed.
  Lemma width_text_spec cw k : forall j t, 0 <= j -> width_text cw j k = Some t ->
    exists ws, length ws = k /\ (forall i, (i < k)%nat -> nth_error ws i = nth_error cw (Z.to_nat j + i)) /\ t = List.concat (map (fun v => dec v +++ bs " ") ws).
  Proof.
    induction k as [|k IH]; intros j t Hj H; cbn [width_text] in H.
    - injection H as <-. exists []. split; [reflexivity|]. split; [intros; lia|reflexivity].
    - destruct (at_ cw j) as [v|] eqn:Ev; [|discriminate]. destruct (width_text cw (j + 1) k) as [t'|] eqn:Et; [|discriminate].
      injection H as <-. destruct (IH (j + 1) t' ltac:(lia) Et) as (ws & L & Hn & ->). exists (v :: ws). split; [cbn; congruence|]. split.
      + intros [|i] Hi.
        * rewrite Nat.add_0_r. unfold at_ in Ev. replace (j <? 0) with false in Ev by lia. now rewrite Ev.
        * cbn [nth_error]. rewrite Hn by lia. f_equal. lia.
      + cbn [map List.concat]. now rewrite <- app_assoc.
  Qed.
End G.

Section F.
  Context {E : env} (d : doc (e_num E)).
  Local Notation objs := (list (Z * bytes)).
  Local Notation S := (cipher d).
  Lemma put_font_core_exact fo v : exists os, adds v (put_font_core fo v) os /\ w_tab (put_font_core fo v) = w_tab v /\ standard_at (Oin os) (w_n v + 1) fo.
  Proof.
    unfold put_font_core. cbv zeta. set (b := negb (beqb (fo_name fo) (bs "Symbol")) && negb (beqb (fo_name fo) (bs "ZapfDingbats"))).
    eexists. split; [|split].
    - eapply adds_obj_eq; [|reflexivity]. apply writes_snoc. instantiate (1 := bs "<</Type /Font" +++ eol +++ bs "/BaseFont /" +++ fo_name fo +++ eol +++ bs "/Subtype /Type1" +++ eol +++ line_if b (bs "/Encoding /WinAnsiEncoding")).
      destruct b; (eapply writes_eq; [repeat wr1|]); unfold line_if; txt.
    - destruct b; rewrite !tab_out; apply newobj_tab.
    - left. f_equal. fold b. txt.
  Qed.

  (** [kf]: the number of the font file *)
  Lemma put_font_simple_exact t1 nf fo v O0 info :
    0 <= fo_diffn fo -> ok (put_font_simple t1 nf fo v) ->
    In (fo_file fo, info) (d_files d) -> file_at O0 S (saved (SFile (fo_file fo)) v) (fo_file fo) info ->
    (0 < fo_diffn fo -> exists diff, nth_error (d_diffs d) (Z.to_nat (fo_diffn fo - 1)) = Some diff /\
       O0 (nf + fo_diffn fo) (bs "<</Type /Encoding /BaseEncoding /WinAnsiEncoding /Differences [" +++ diff +++ bs "]>>" +++ eol)) ->
    exists os, adds v (put_font_simple t1 nf fo v) os /\ os <> [] /\ w_tab (put_font_simple t1 nf fo v) = w_tab v /\
      simple_at d (fun k b => O0 k b \/ Oin os k b) S (w_n v + 1) t1 fo.
  Proof.
    intros Hdn Hok Hin Hf He. unfold put_font_simple in *. cbv zeta in *.
    set (enc := if 0 <? fo_diffn fo then ref (nf + fo_diffn fo) else bs "/WinAnsiEncoding").
    set (v1 := out (bs "endobj") (out (bs ">>") (if 0 <? fo_diffn fo then _ else _))) in *.
    assert (N0 : w_n (newobj v) = w_n v + 1) by apply newobj_n.
    assert (A1 : adds v v1 [obj (w_n v + 1) (bs "<</Type /Font" +++ eol +++ bs "/BaseFont /" +++ fo_name fo +++ eol +++
           bs "/Subtype /" +++ (if t1 then bs "Type1" else bs "TrueType") +++ eol +++
           bs "/FirstChar 32 /LastChar 255" +++ eol +++ bs "/Widths " +++ ref (w_n v + 2) +++ eol +++
           bs "/FontDescriptor " +++ ref (w_n v + 3) +++ eol +++ bs "/Encoding " +++ enc +++ eol +++ bs ">>" +++ eol)]).
    { unfold v1, enc. rewrite !n_out, !N0. destruct (0 <? fo_diffn fo);
      (eapply adds_obj_eq; [repeat wr1|]); unfold ref; replace (w_n v + 1 + 1) with (w_n v + 2) by lia; replace (w_n v + 1 + 2) with (w_n v + 3) by lia; txt. }
    assert (T1 : w_tab v1 = w_tab v) by (unfold v1; destruct (0 <? fo_diffn fo); rewrite !tab_out; apply newobj_tab).
    match type of A1 with adds _ _ ?o => set (o1 := o) in * end.
    assert (N1 : w_n v1 = w_n v + 1) by (rewrite (ad_n _ _ _ A1); reflexivity). clearbody v1.
    destruct (width_text (fo_cw fo) 32 224) as [wt|] eqn:Ew.
    2:{ exfalso. apply ok_out, ok_out, newobj_ok, ok_out, ok_out, ok_panic in Hok. exact Hok. }
    set (v2 := out (bs "endobj") (out (bs "[" +++ wt +++ bs "]") (newobj v1))) in *.
    assert (A2 : adds v1 v2 [obj (w_n v + 2) (bs "[" +++ wt +++ bs "]" +++ eol)]).
    { unfold v2. replace (w_n v + 2) with (w_n v1 + 1) by lia. eapply adds_obj_eq; [repeat wr1|]. txt. }
    assert (T2 : w_tab v2 = w_tab v) by (unfold v2; rewrite !tab_out, newobj_tab; exact T1).
    match type of A2 with adds _ _ ?o => set (o2 := o) in * end.
    assert (N2 : w_n v2 = w_n v + 2) by (rewrite (ad_n _ _ _ A2), N1; unfold o2; rewrite zlen_cons, zlen_nil; lia). clearbody v2.
    assert (Sv : saved (SFile (fo_file fo)) (newobj v2) = saved (SFile (fo_file fo)) v) by (unfold saved; now rewrite newobj_tab, T2).
    rewrite Sv. eexists. split; [|split; [|split]].
    - eapply adds_trans; [exact A1|]. eapply adds_trans; [exact A2|]. eapply adds_obj_eq; [repeat wr1|reflexivity].
    - discriminate.
    - rewrite !tab_out, newobj_tab. exact T2.
    - exists (w_n v + 2), (w_n v + 3), enc. split; [|split; [|split]].
      + destruct (width_text_spec _ _ 32 _ ltac:(lia) Ew) as (ws & L & Hn & ->). exists ws. split; [exact L|]. split; [exact Hn|].
        right. right. left. reflexivity.
      + exists (saved (SFile (fo_file fo)) v), info. split; [exact Hin|]. split.
        * eapply file_at_mono; [|reflexivity|exact Hf]. auto.
        * right. right. right. left. unfold obj. apply f_equal2; [lia|]. apply f_equal2; [|reflexivity]. unfold bbox, bbox_text, ref. txt.
      + unfold encoding_at, enc. destruct (0 <? fo_diffn fo) eqn:Ed; [|reflexivity]. destruct (He ltac:(lia)) as (diff & X & Y).
        exists (nf + fo_diffn fo), diff. auto.
      + right. left. reflexivity.
  Qed.
  Lemma put_font_utf8_exact fo v : cipok v -> ok (put_font_utf8 d fo v) ->
    exists os, adds v (put_font_utf8 d fo v) os /\ os <> [] /\ w_tab (put_font_utf8 d fo v) = w_tab v /\ utf8_at (E := E) (Oin os) S (w_n v + 1) fo.
  Proof.
    intros Hc Hok. unfold put_font_utf8 in Hok |- *.
    assert (G : forall gm, gid_map (fo_gids fo) gid_zero = Some gm -> glyph_map (fo_gids fo) gm) by (intros; now apply gid_map_glyphs).
    generalize dependent gid_zero. intros zero Hok G. cbv zeta in Hok |- *.
    destruct (gid_map (fo_gids fo) zero) as [gm|].
    2:{ exfalso. destruct Hok as [_ Hok]. revert Hok. rewrite putstream_panic; [discriminate|].
        rewrite ?p_out. apply newobj_panic, putstream_panic. rewrite ?p_out. apply newobj_panic. reflexivity. }
    clear Hok. specialize (G gm eq_refl).
    set (fd := fo_desc fo) in *. set (name := bs "utf8" +++ fo_name fo) in *.
    (* object 1 *)
    rewrite (newobj_n v).
    set (v1 := out (bs "endobj") (out _ (newobj v))).
    assert (A1 : adds v v1 [obj (w_n v + 1) (bs "<</Type /Font" +++ eol +++ bs "/Subtype /Type0" +++ eol +++ bs "/BaseFont /" +++ name +++ eol +++
           bs "/Encoding /Identity-H" +++ eol +++ bs "/DescendantFonts [" +++ ref (w_n v + 2) +++ bs "]" +++ eol +++ bs "/ToUnicode " +++ ref (w_n v + 3) +++ bs ">>" +++ eol)]).
    { unfold v1. eapply adds_obj_eq; [repeat wr1|]. unfold ref. replace (w_n v + 1 + 1) with (w_n v + 2) by lia; replace (w_n v + 1 + 2) with (w_n v + 3) by lia; txt. }
    assert (T1 : w_tab v1 = w_tab v) by (unfold v1; rewrite !tab_out; apply newobj_tab).
    match type of A1 with adds _ _ ?o => set (o1 := o) in * end.
    assert (N1 : w_n v1 = w_n v + 1) by (rewrite (ad_n _ _ _ A1); reflexivity). assert (C1 := ad_cip _ _ _ A1 Hc). clearbody v1.
    (* object 2 *)
    rewrite (newobj_n v1).
    set (u2 := if fd_missing fd =? 0 then _ else _).
    assert (W2 : writes (newobj v1) u2 (bs "<</Type /Font" +++ eol +++ bs "/Subtype /CIDFontType2" +++ eol +++ bs "/BaseFont /" +++ name +++ eol +++
            bs "/CIDSystemInfo " +++ ref (w_n v + 4) +++ eol +++ bs "/FontDescriptor " +++ ref (w_n v + 5) +++ eol +++
            line_if (negb (fd_missing fd =? 0)) (bs "/DW " +++ dec (fd_missing fd))) /\ w_tab u2 = w_tab v).
    { unfold u2. rewrite N1. replace (w_n v + 1 + 1 + 2) with (w_n v + 4) by lia. replace (w_n v + 1 + 1 + 3) with (w_n v + 5) by lia.
      destruct (fd_missing fd =? 0); (split; [|rewrite !tab_out, newobj_tab; exact T1]); (eapply writes_eq; [repeat wr1|]); unfold ref, line_if; cbn [negb]; txt. }
    destruct W2 as [W2 T2]. clearbody u2.
    assert (Nu : w_n u2 = w_n v + 2) by (rewrite (wr_n _ _ _ W2), newobj_n, N1; lia).
    rewrite !n_out, Nu. replace (w_n v + 2 + 4) with (w_n v + 6) by lia.
    set (v2 := out (bs "endobj") (out (bs "/CIDToGIDMap " +++ _) _)).
    assert (A2 : adds v1 v2 [obj (w_n v1 + 1) (bs "<</Type /Font" +++ eol +++ bs "/Subtype /CIDFontType2" +++ eol +++ bs "/BaseFont /" +++ name +++ eol +++
            bs "/CIDSystemInfo " +++ ref (w_n v + 4) +++ eol +++ bs "/FontDescriptor " +++ ref (w_n v + 5) +++ eol +++
            line_if (negb (fd_missing fd =? 0)) (bs "/DW " +++ dec (fd_missing fd)) +++ fo_wtext fo +++ eol +++ bs "/CIDToGIDMap " +++ ref (w_n v + 6) +++ bs ">>" +++ eol)]).
    { unfold v2. eapply adds_obj_eq; [do 2 apply writes_snoc; exact W2|]. unfold ref. txt. }
    assert (T2' : w_tab v2 = w_tab v) by (unfold v2; rewrite !tab_out; exact T2).
    match type of A2 with adds _ _ ?o => set (o2 := o) in * end.
    assert (N2 : w_n v2 = w_n v + 2) by (rewrite (ad_n _ _ _ A2), N1; change (zlen o2) with 1; lia). assert (C2 := ad_cip _ _ _ A2 C1). clearbody v2. clear u2 W2 T2 Nu.
    (* object 3 *)
    destruct (adds_stream_eq d v2 (out (bs "<</Length " +++ dec (zlen (e_to_unicode E)) +++ bs ">>") (newobj v2)) _ _ (e_to_unicode E) C2 (writes_out _ _) eq_refl eq_refl) as (o3 & A3 & E3).
    set (v3 := out (bs "endobj") (putstream d (e_to_unicode E) _)) in *.
    assert (T3 : w_tab v3 = w_tab v) by (unfold v3; rewrite tab_out, putstream_tab, tab_out, newobj_tab; exact T2').
    assert (N3 : w_n v3 = w_n v + 3) by (rewrite (ad_n _ _ _ A3), N2, E3; rewrite zlen_cons, zlen_nil; lia). assert (C3 := ad_cip _ _ _ A3 C2). clearbody v3.
    (* object 4 *)
    set (v4 := out (bs "endobj") (out _ (newobj v3))).
    assert (A4 : adds v3 v4 [obj (w_n v + 4) (bs "<</Registry (Adobe)" +++ eol +++ bs "/Ordering (UCS)" +++ eol +++ bs "/Supplement 0>>" +++ eol)]).
    { unfold v4. replace (w_n v + 4) with (w_n v3 + 1) by lia. eapply adds_obj_eq; [repeat wr1|]. txt. }
    assert (T4 : w_tab v4 = w_tab v) by (unfold v4; rewrite !tab_out, newobj_tab; exact T3).
    match type of A4 with adds _ _ ?o => set (o4 := o) in * end.
    assert (N4 : w_n v4 = w_n v + 4) by (rewrite (ad_n _ _ _ A4), N3; change (zlen o4) with 1; lia). assert (C4 := ad_cip _ _ _ A4 C3). clearbody v4.
    (* object 5 *)
    rewrite (newobj_n v4), N4. replace (w_n v + 4 + 1 + 2) with (w_n v + 7) by lia.
    set (v5 := out (bs "endobj") (out _ (newobj v4))).
    assert (A5 : adds v4 v5 [obj (w_n v + 5) (bs "<</Type /FontDescriptor /FontName /" +++ name +++ eol +++ bs " /Ascent " +++ dec (fd_ascent fd)
            +++ bs " /Descent " +++ dec (fd_descent fd) +++ bs " /CapHeight " +++ dec (fd_capheight fd)
            +++ bs " /Flags " +++ dec (Z.ldiff (Z.lor (fd_flags fd) 4) 32) +++ bbox fd
            +++ bs " /ItalicAngle " +++ dec (fd_italic fd) +++ bs " /StemV " +++ dec (fd_stemv fd)
            +++ bs " /MissingWidth " +++ dec (fd_missing fd) +++ bs "/FontFile2 " +++ ref (w_n v + 7) +++ bs ">>" +++ eol)]).
    { unfold v5. replace (w_n v + 5) with (w_n v4 + 1) by lia. eapply adds_obj_eq; [repeat wr1|]. unfold ref, bbox, bbox_text. txt. }
    assert (T5 : w_tab v5 = w_tab v) by (unfold v5; rewrite !tab_out, newobj_tab; exact T4).
    match type of A5 with adds _ _ ?o => set (o5 := o) in * end.
    assert (N5 : w_n v5 = w_n v + 5) by (rewrite (ad_n _ _ _ A5), N4; change (zlen o5) with 1; lia). assert (C5 := ad_cip _ _ _ A5 C4). clearbody v5.
    (* object 6 *)
    destruct (adds_stream_eq d v5 (out (bs "<</Length " +++ dec (zlen (e_zlib E gm)) +++ bs "/Filter /FlateDecode>>") (newobj v5)) _ _ (e_zlib E gm) C5 (writes_out _ _) eq_refl eq_refl) as (o6 & A6 & E6).
    set (v6 := out (bs "endobj") (putstream d (e_zlib E gm) _)) in *.
    assert (T6 : w_tab v6 = w_tab v) by (unfold v6; rewrite tab_out, putstream_tab, tab_out, newobj_tab; exact T5).
    assert (N6 : w_n v6 = w_n v + 6) by (rewrite (ad_n _ _ _ A6), N5, E6; rewrite zlen_cons, zlen_nil; lia). assert (C6 := ad_cip _ _ _ A6 C5). clearbody v6.
    (* object 7 *)
    assert (W7 : writes (newobj v6) (out (bs ">>") (out (bs "/Length1 " +++ dec (zlen (fo_utf8 fo))) (out (bs "/Filter /FlateDecode") (out (bs "<</Length " +++ dec (zlen (e_zlib E (fo_utf8 fo)))) (newobj v6)))))
      (bs "<</Length " +++ dec (zlength (e_zlib E (fo_utf8 fo))) +++ eol +++ bs "/Filter /FlateDecode" +++ eol +++ bs "/Length1 " +++ dec (zlength (fo_utf8 fo)) +++ eol +++ bs ">>" +++ eol)).
    { eapply writes_eq; [repeat wr1|]. unfold zlength, zlen. txt. }
    destruct (adds_stream_eq d v6 _ _ _ (e_zlib E (fo_utf8 fo)) C6 W7 eq_refl eq_refl) as (o7 & A7 & E7).
    exists (o1 +++ o2 +++ o3 +++ o4 +++ o5 +++ o6 +++ o7). split; [|split; [discriminate|split]].
    - repeat (eapply adds_trans; [eassumption|]). exact A7.
    - rewrite tab_out, putstream_tab, !tab_out, newobj_tab. exact T6.
    - assert (I : forall (x : Z * bytes) a b, In x a -> In x (a +++ b)) by (intros; apply in_or_app; now left).
      assert (J : forall (x : Z * bytes) a b, In x b -> In x (a +++ b)) by (intros; apply in_or_app; now right).
      exists (w_n v + 2), (w_n v + 3), (w_n v + 4), (w_n v + 5), (w_n v + 6), (w_n v + 7), gm. fold fd. fold name.
      split; [apply I; left; reflexivity|]. split.
      { apply J, I. unfold o2. rewrite N1. left. unfold obj. apply f_equal2; [lia|reflexivity]. }
      split. { do 2 apply J. apply I. rewrite E3, N2. left. replace (w_n v + 2 + 1) with (w_n v + 3) by lia. unfold obj. apply f_equal2; [reflexivity|]. apply f_equal2; [|reflexivity]. unfold zlength. fold (zlen (e_to_unicode E)). txt. }
      split. { do 3 apply J. apply I. left. reflexivity. }
      split. { do 4 apply J. apply I. left. reflexivity. }
      split; [exact G|]. split.
      { do 5 apply J. apply I. rewrite E6, N5. left. replace (w_n v + 5 + 1) with (w_n v + 6) by lia. unfold obj. apply f_equal2; [reflexivity|]. apply f_equal2; [|reflexivity]. unfold zlength. fold (zlen (e_zlib E gm)). txt. }
      { do 6 apply J. rewrite E7, N6. left. replace (w_n v + 6 + 1) with (w_n v + 7) by lia. reflexivity. }
  Qed.
End F.
